(** * C-DIS: bit streams, bit fields and variable-length integers

    Models cdis-assemble/src/writing.rs, parsing.rs, types/{model,parser,writer}.rs and constants.rs.
    A bit stream is a [list bool]; nom's [(&[u8], usize)] bit input is the list of its remaining bits, most significant first.
    A writer yields the bits it stores from the cursor on; the returned cursor is the old one plus the number of bits
    ([splice] below gives the effect on the buffer). *)
From Coq Require Import ZArith List Lia Bool.
From Verif Require Import Base.
Import ListNotations. Open Scope Z_scope.

Notation bitparser := (parser (list bool)).
Notation BW := (wres bool unit).

(** value fits in [n] bits, unsigned and two's complement *)
Definition ub (n v : Z) : Prop := 0 <= v < 2 ^ n.
Definition sb (n v : Z) : Prop := - 2 ^ (n - 1) <= v < 2 ^ (n - 1).

(** the [n] low bits of [v], most significant first *)
Fixpoint ubits_nat (n : nat) (v : Z) : list bool :=
  match n with O => [] | S n' => Z.testbit v (Z.of_nat n') :: ubits_nat n' v end.
Definition ubits (n : Z) (v : Z) : list bool := ubits_nat (Z.to_nat n) v.
Definition uval (l : list bool) : Z := fold_left (fun acc b => 2 * acc + Z.b2z b) l 0.

(** nom::bits::complete::take(count): [count] bits as an unsigned number. Count 0 yields 0. *)
Definition btake (n : Z) : bitparser Z := fun i =>
  if zlen i <? n then PErr Eof else POk (skipn (Z.to_nat n) i) (uval (firstn (Z.to_nat n) i)).
(** nom::bits::complete::bool *)
Definition bbool : bitparser bool := pbind (btake 1) (fun v => pret (negb (v =? 0))).

(** write_value_with_length / write_value_unsigned, writing.rs:73-82: [buf[cursor..cursor+n].store_be(value)] of a value whose
    Rust type has [ty] bits. bitvec's [store_be] panics unless 1 <= n <= ty; it stores the [n] low bits, most significant first. *)
Definition bput (ty n v : Z) : BW := if (1 <=? n) && (n <=? ty) then WOk (ubits n v) tt else WPanic.
(** signed arithmetic of a [ty]-bit type *)
Definition sarith (m : mode) (ty r : Z) : wres bool Z :=
  if (- 2 ^ (ty - 1) <=? r) && (r <? 2 ^ (ty - 1)) then WOk [] r
  else match m with Checked => WPanic | Wrapping => WOk [] (sext ty (r mod 2 ^ ty)) end.
(** write_value_signed, writing.rs:84-97: a sign bit, then [n - 1] bits. [T::from_isize((-2)^(n-1))] panics if the number does not fit
    the type; it is positive for odd [n]. *)
Definition bput_s (m : mode) (ty n v : Z) : BW :=
  (bput 8 1 (if v <? 0 then 1 else 0);;
   d <- (if v <? 0 then
           let lo := (-2) ^ (n - 1) in
           if (- 2 ^ (ty - 1) <=? lo) && (lo <? 2 ^ (ty - 1)) then sarith m ty (lo - v) else WPanic
         else sarith m ty (0 - v));;
   d' <- sarith m ty (- d);;
   bput ty (n - 1) d')%write.
(** take_signed, parsing.rs:143-159, followed by [as i16] and so on by its callers *)
Definition btake_s (n : Z) : bitparser Z :=
  (s <- btake 1;; v <- btake (n - 1);; pret (if s =? 0 then v else - 2 ^ (n - 1) + v))%parse.
(** nom's take into an i32, types/parser.rs:90: 32 bits are the two's complement pattern *)
Definition btake_i32 : bitparser Z := (v <- btake 32;; pret (sext 32 v))%parse.

(** serialize_when_present, writing.rs:101-103 *)
Definition w_opt {A} (w : A -> BW) (o : option A) : BW := match o with Some a => w a | None => wret tt end.
(** field_present and parse_field_when_present, parsing.rs:96-127 *)
Definition field_present (fp mask : Z) : bool := negb (Z.land fp mask =? 0).
Definition p_when {A} (fp mask : Z) (p : bitparser A) : bitparser (option A) :=
  if field_present fp mask then (a <- p;; pret (Some a))%parse else pret None.
(** [iter().fold(cursor, ...)] over a vector *)
Fixpoint bw_list {A} (w : A -> BW) (l : list A) : BW :=
  match l with [] => wret tt | x :: t => (w x;; bw_list w t)%write end.

(** ** Effect on the buffer *)
(** [buf[cursor ..]] overwritten by the bits; indexing past the end panics *)
Definition splice (buf : list bool) (cursor : Z) (bs : list bool) : option (list bool) :=
  if (0 <=? cursor) && (cursor + zlen bs <=? zlen buf)
  then Some (firstn (Z.to_nat cursor) buf ++ bs ++ skipn (Z.to_nat (cursor + zlen bs)) buf) else None.
(** run a writer at a cursor: the new buffer and cursor, or a panic *)
Definition run_at (w : BW) (buf : list bool) (cursor : Z) : option (list bool * Z) :=
  match w with
  | WOk bs _ => match splice buf cursor bs with Some b => Some (b, cursor + zlen bs) | None => None end
  | WPanic => None
  end.

(** ** Variable-length integers, types/model.rs
    The [bit_size] tag is private and always the one chosen by [From], so a value is modelled by its number alone. (The
    number is a public field; a program that overwrites it keeps the old tag: see CdisSized.v.) *)
(* UVINT8, model.rs:78-126 *)
Definition uvint8_class (v : Z) : Z := if v <=? 15 then 0 else 1.
Definition uvint8_bits (c : Z) : Z := if c =? 0 then 4 else 8.
(* UVINT16, model.rs:177-234 *)
Definition uvint16_class (v : Z) : Z := if v <=? 255 then 0 else if v <=? 2047 then 1 else if v <=? 16383 then 2 else 3.
Definition uvint16_bits (c : Z) : Z := if c =? 0 then 8 else if c =? 1 then 11 else if c =? 2 then 14 else 16.
(* UVINT32, model.rs:285-343 *)
Definition uvint32_class (v : Z) : Z := if v <=? 255 then 0 else if v <=? 32767 then 1 else if v <=? 262143 then 2 else 3.
Definition uvint32_bits (c : Z) : Z := if c =? 0 then 8 else if c =? 1 then 15 else if c =? 2 then 18 else 32.
(* SVINT12, model.rs:388-466 *)
Definition in_rng (lo hi v : Z) : bool := (lo <=? v) && (v <=? hi).
Definition svint12_class (v : Z) : Z :=
  if in_rng (-4) 3 v then 0 else if in_rng (-32) 31 v then 1 else if in_rng (-256) 255 v then 2 else if in_rng (-2048) 2047 v then 3 else 3.
Definition svint12_bits (c : Z) : Z := if c =? 0 then 3 else if c =? 1 then 6 else if c =? 2 then 9 else 12.
Definition svint12_min (c : Z) : Z := if c =? 0 then -4 else if c =? 1 then -32 else if c =? 2 then -256 else -2048.
(* SVINT13, model.rs:511-589 *)
Definition svint13_class (v : Z) : Z :=
  if in_rng (-16) 15 v then 0 else if in_rng (-64) 63 v then 1 else if in_rng (-512) 511 v then 2 else if in_rng (-4096) 4095 v then 3 else 3.
Definition svint13_bits (c : Z) : Z := if c =? 0 then 5 else if c =? 1 then 7 else if c =? 2 then 10 else 13.
Definition svint13_min (c : Z) : Z := if c =? 0 then -16 else if c =? 1 then -64 else if c =? 2 then -512 else -4096.
(* SVINT14, model.rs:634-712 *)
Definition svint14_class (v : Z) : Z :=
  if in_rng (-8) 7 v then 0 else if in_rng (-64) 63 v then 1 else if in_rng (-256) 255 v then 2 else if in_rng (-8192) 8191 v then 3 else 3.
Definition svint14_bits (c : Z) : Z := if c =? 0 then 4 else if c =? 1 then 7 else if c =? 2 then 9 else 14.
Definition svint14_min (c : Z) : Z := if c =? 0 then -8 else if c =? 1 then -64 else if c =? 2 then -256 else -8192.
(* SVINT16, model.rs:757-834 *)
Definition svint16_class (v : Z) : Z :=
  if in_rng (-128) 127 v then 0 else if in_rng (-2048) 2047 v then 1 else if in_rng (-4096) 4095 v then 2 else 3.
Definition svint16_bits (c : Z) : Z := if c =? 0 then 8 else if c =? 1 then 12 else if c =? 2 then 13 else 16.
Definition svint16_min (c : Z) : Z := if c =? 0 then -128 else if c =? 1 then -2048 else if c =? 2 then -4096 else -32768.
(* SVINT24, model.rs:879-957. The minimum of the 24-bit size is written [8_388_608], without the sign (line 922). *)
Definition svint24_class (v : Z) : Z :=
  if in_rng (-32768) 32767 v then 0 else if in_rng (-262144) 262143 v then 1 else if in_rng (-1048576) 1048575 v then 2
  else if in_rng (-8388608) 8388607 v then 3 else 3.
Definition svint24_bits (c : Z) : Z := if c =? 0 then 16 else if c =? 1 then 19 else if c =? 2 then 21 else 24.
Definition svint24_min (c : Z) : Z := if c =? 0 then -32768 else if c =? 1 then -262144 else if c =? 2 then -1048576 else 8388608.

(* serialize, types/writer.rs:8-97; flag_bits_size 1 for UVINT8, 2 for the others; the flag is a u8, the value has the inner type *)
Definition w_uvint (flag ty : Z) (cls bits : Z -> Z) (v : Z) : BW := (bput 8 flag (cls v);; bput ty (bits (cls v)) v)%write.
Definition w_svint (m : mode) (ty : Z) (cls bits : Z -> Z) (v : Z) : BW := (bput 8 2 (cls v);; bput_s m ty (bits (cls v)) v)%write.
(* uvint8..svint24, types/parser.rs:9-86 *)
Definition p_uvint (flag : Z) (bits : Z -> Z) : bitparser Z := (c <- btake flag;; btake (bits c))%parse.
Definition p_svint (bits mn : Z -> Z) : bitparser Z :=
  (c <- btake 2;; s <- bbool;; v <- btake (bits c - 1);; pret ((if s then mn c else 0) + v))%parse.
(* record_length, model.rs:20-22 *)
Definition len_vint (flag : Z) (cls bits : Z -> Z) (v : Z) : Z := flag + bits (cls v).

Definition w_uvint8 := w_uvint 1 8 uvint8_class uvint8_bits.
Definition w_uvint16 := w_uvint 2 16 uvint16_class uvint16_bits.
Definition w_uvint32 := w_uvint 2 32 uvint32_class uvint32_bits.
Definition w_svint12 m := w_svint m 16 svint12_class svint12_bits.
Definition w_svint13 m := w_svint m 16 svint13_class svint13_bits.
Definition w_svint14 m := w_svint m 16 svint14_class svint14_bits.
Definition w_svint16 m := w_svint m 16 svint16_class svint16_bits.
Definition w_svint24 m := w_svint m 32 svint24_class svint24_bits.
Definition p_uvint8 := p_uvint 1 uvint8_bits.
Definition p_uvint16 := p_uvint 2 uvint16_bits.
Definition p_uvint32 := p_uvint 2 uvint32_bits.
Definition p_svint12 := p_svint svint12_bits svint12_min.
Definition p_svint13 := p_svint svint13_bits svint13_min.
Definition p_svint14 := p_svint svint14_bits svint14_min.
Definition p_svint16 := p_svint svint16_bits svint16_min.
Definition p_svint24 := p_svint svint24_bits svint24_min.
Definition len_uvint8 := len_vint 1 uvint8_class uvint8_bits.
Definition len_uvint16 := len_vint 2 uvint16_class uvint16_bits.
Definition len_uvint32 := len_vint 2 uvint32_class uvint32_bits.
Definition len_svint12 := len_vint 2 svint12_class svint12_bits.
Definition len_svint13 := len_vint 2 svint13_class svint13_bits.
Definition len_svint14 := len_vint 2 svint14_class svint14_bits.
Definition len_svint16 := len_vint 2 svint16_class svint16_bits.
Definition len_svint24 := len_vint 2 svint24_class svint24_bits.

(* serialize_clock_time and clock_time, types/writer.rs:99-106, types/parser.rs:88-95; hour i32, time past the hour u32 *)
Definition w_clock (m : mode) (hour past : Z) : BW := (bput_s m 32 32 hour;; bput 32 32 past)%write.
Definition p_clock : bitparser (Z * Z) := (h <- btake_i32;; t <- btake 32;; pret (h, t))%parse.

(** ** Facts about bits *)
Lemma ubits_nat_length n v : length (ubits_nat n v) = n.
Proof. induction n; cbn; congruence. Qed.
Lemma ubits_zlen n v : 0 <= n -> zlen (ubits n v) = n.
Proof. intros H. unfold zlen, ubits. rewrite ubits_nat_length. lia. Qed.
Lemma uval_acc l : forall a, fold_left (fun acc b => 2 * acc + Z.b2z b) l a = a * 2 ^ zlen l + uval l.
Proof.
  unfold uval. induction l as [|b l IH]; intros a; cbn [fold_left].
  - rewrite zlen_nil. change (2 ^ 0) with 1. ring.
  - rewrite IH, (IH (2 * 0 + Z.b2z b)). rewrite zlen_cons, Z.pow_add_r by (pose proof (zlen_nonneg l); lia). change (2 ^ 1) with 2. ring.
Qed.
Lemma uval_cons b l : uval (b :: l) = Z.b2z b * 2 ^ zlen l + uval l.
Proof. unfold uval at 1. cbn [fold_left]. rewrite uval_acc. lia. Qed.
Lemma uval_bound l : 0 <= uval l < 2 ^ zlen l.
Proof.
  induction l as [|b l IH]; [split; [vm_compute; discriminate|reflexivity]|]. rewrite uval_cons, zlen_cons, Z.pow_add_r by (pose proof (zlen_nonneg l); lia).
  change (2 ^ 1) with 2. destruct b; cbn [Z.b2z]; lia.
Qed.
Lemma uval_ubits_nat n v : uval (ubits_nat n v) = v mod 2 ^ Z.of_nat n.
Proof.
  induction n as [|n IH]; [cbn; now rewrite Z.mod_1_r|].
  cbn [ubits_nat]. rewrite uval_cons, IH. replace (zlen (ubits_nat n v)) with (Z.of_nat n) by (unfold zlen; now rewrite ubits_nat_length).
  rewrite Nat2Z.inj_succ. unfold Z.succ. rewrite Z.pow_add_r by lia. change (2 ^ 1) with 2.
  rewrite Z.testbit_spec' by lia. rewrite Z.rem_mul_r by (try apply Z.pow_nonzero; lia). lia.
Qed.
Lemma uval_ubits n v : 0 <= n -> uval (ubits n v) = v mod 2 ^ n.
Proof. intros H. unfold ubits. rewrite uval_ubits_nat, Z2Nat.id by lia. reflexivity. Qed.
Lemma uval_app l1 l2 : uval (l1 ++ l2) = uval l1 * 2 ^ zlen l2 + uval l2.
Proof. unfold uval at 1. rewrite fold_left_app, uval_acc. reflexivity. Qed.
Lemma btake_app n bs rest : zlen bs = n -> btake n (bs ++ rest) = POk rest (uval bs).
Proof.
  intros H. unfold btake. rewrite zlen_app, H. pose proof (zlen_nonneg rest).
  destruct (Z.ltb_spec (n + zlen rest) n); [lia|]. assert (Hl : length bs = Z.to_nat n) by (unfold zlen in H; lia).
  rewrite skipn_app_exact, firstn_app_exact by exact Hl. reflexivity.
Qed.

(** ** The round-trip judgement on bit streams: [w] writes [L] bits which [p] reads back as [x], whatever follows. *)
Definition BRT {A} (w : BW) (p : bitparser A) (x : A) (L : Z) : Prop :=
  exists bs, w = WOk bs tt /\ zlen bs = L /\ forall rest, p (bs ++ rest) = POk rest x.
Lemma BRT_ret {A} (x : A) : BRT (wret tt) (pret x) x 0.
Proof. exists []. repeat split. Qed.
Lemma BRT_bind {A1 A} (w1 : BW) (p1 : bitparser A1) x1 L1 (k : unit -> BW) (f : A1 -> bitparser A) x L :
  BRT w1 p1 x1 L1 -> BRT (k tt) (f x1) x L -> BRT (wbind w1 k) (pbind p1 f) x (L1 + L).
Proof.
  intros (b1 & -> & Hl1 & Hp1) (b2 & Hw2 & Hl2 & Hp2). exists (b1 ++ b2). unfold wbind. rewrite Hw2. repeat split.
  - rewrite zlen_app; lia.
  - intros rest. unfold pbind. rewrite <- app_assoc, Hp1. apply Hp2.
Qed.
Lemma BRT_conv {A} (w : BW) (p : bitparser A) x x' L L' : BRT w p x L -> x = x' -> L = L' -> BRT w p x' L'.
Proof. intros H -> ->; exact H. Qed.
(** a writer that ends with its last field *)
Lemma BRT_end {A1 A} (w1 : BW) (p1 : bitparser A1) x1 L1 (f : A1 -> bitparser A) x :
  BRT w1 p1 x1 L1 -> (forall i, f x1 i = POk i x) -> BRT w1 (pbind p1 f) x L1.
Proof. intros (b1 & -> & Hl1 & Hp1) H. exists b1. repeat split; auto. intros rest. unfold pbind. now rewrite Hp1. Qed.
(** a parser step that consumes nothing *)
Lemma BRT_ppure {A1 A} (w : BW) (p1 : bitparser A1) x1 (f : A1 -> bitparser A) x L :
  (forall i, p1 i = POk i x1) -> BRT w (f x1) x L -> BRT w (pbind p1 f) x L.
Proof. intros H1 (b2 & Hw2 & Hl2 & Hp2). exists b2. repeat split; auto. intros rest. unfold pbind. rewrite H1. apply Hp2. Qed.
(** a writer step that stores nothing *)
Lemma BRT_wpure {A} (w1 : BW) (k : unit -> BW) (p : bitparser A) x L :
  w1 = WOk [] tt -> BRT (k tt) p x L -> BRT (wbind w1 k) p x L.
Proof. intros -> (b2 & Hw2 & Hl2 & Hp2). exists b2. unfold wbind. rewrite Hw2. repeat split; auto. Qed.
Lemma BRT_assoc {A} (w1 : BW) (k1 k2 : unit -> BW) (p : bitparser A) x L :
  BRT (wbind w1 (fun u => wbind (k1 u) k2)) p x L -> BRT (wbind (wbind w1 k1) k2) p x L.
Proof.
  intros (bs & E & Hl & Hp). exists bs. split; [|auto]. rewrite <- E. unfold wbind.
  destruct w1 as [b1 u|]; [|reflexivity]. destruct (k1 u) as [b2 u2|]; [|reflexivity]. destruct (k2 u2) as [b3 u3|]; [|reflexivity].
  now rewrite app_assoc.
Qed.
Lemma pbind_assoc {I A B C} (p : parser I A) (f : A -> parser I B) (g : B -> parser I C) i :
  pbind (pbind p f) g i = pbind p (fun a => pbind (f a) g) i.
Proof. unfold pbind. destruct (p i); reflexivity. Qed.
Lemma BRT_passoc {A B C} (w : BW) (p : bitparser A) (f : A -> bitparser B) (g : B -> bitparser C) x L :
  BRT w (pbind p (fun a => pbind (f a) g)) x L -> BRT w (pbind (pbind p f) g) x L.
Proof. intros (bs & E & Hl & Hp). exists bs. repeat split; auto. intros rest. rewrite pbind_assoc. apply Hp. Qed.

Lemma BRT_put ty n v : 1 <= n <= ty -> ub n v -> BRT (bput ty n v) (btake n) v n.
Proof.
  intros Hn Hv. exists (ubits n v). unfold bput. destruct (Z.leb_spec 1 n); [|lia]. destruct (Z.leb_spec n ty); [|lia].
  split; [reflexivity|]. split; [apply ubits_zlen; lia|]. intros rest. rewrite btake_app by (apply ubits_zlen; lia).
  rewrite uval_ubits by lia. rewrite Z.mod_small by exact Hv. reflexivity.
Qed.
(** what a write of an oversized value leaves *)
Lemma BRT_put_mod ty n v : 1 <= n <= ty -> BRT (bput ty n v) (btake n) (v mod 2 ^ n) n.
Proof.
  intros Hn. exists (ubits n v). unfold bput. destruct (Z.leb_spec 1 n); [|lia]. destruct (Z.leb_spec n ty); [|lia].
  split; [reflexivity|]. split; [apply ubits_zlen; lia|]. intros rest. rewrite btake_app by (apply ubits_zlen; lia). now rewrite uval_ubits by lia.
Qed.
Lemma pow_m2 k : 0 <= k -> (-2) ^ k = if Z.even k then 2 ^ k else - 2 ^ k.
Proof.
  intros H. destruct (Z.even k) eqn:E.
  - change (-2) with (- (2)). apply Z.pow_opp_even. now apply Z.even_spec.
  - change (-2) with (- (2)). apply Z.pow_opp_odd. apply Z.odd_spec. unfold Z.odd, Z.even in *. destruct k as [|[]|[]]; congruence.
Qed.
Lemma sarith_ok m ty r : - 2 ^ (ty - 1) <= r < 2 ^ (ty - 1) -> sarith m ty r = WOk [] r.
Proof. intros H. unfold sarith. destruct (Z.leb_spec (- 2 ^ (ty - 1)) r); [|lia]. destruct (Z.ltb_spec r (2 ^ (ty - 1))); [reflexivity|lia]. Qed.
Lemma bput_s_bits m ty n v : 2 <= n <= ty -> sb n v -> (n + 2 <= ty \/ Z.even n = true \/ - 2 ^ (n - 1) < v /\ Z.even ty = true) ->
  bput_s m ty n v = WOk (ubits 1 (if v <? 0 then 1 else 0) ++ ubits (n - 1) (if v <? 0 then v + 2 ^ (n - 1) else v)) tt.
Proof.
  intros Hn Hv Hc. unfold sb in Hv. unfold bput_s.
  assert (Hp : 2 ^ n = 2 * 2 ^ (n - 1)) by (replace n with (1 + (n - 1)) at 1 by lia; rewrite Z.pow_add_r by lia; reflexivity).
  assert (Hle : 2 ^ (n - 1) <= 2 ^ (ty - 1)) by (apply Z.pow_le_mono_r; lia).
  assert (Hpos : 0 < 2 ^ (n - 1)) by (apply Z.pow_pos_nonneg; lia).
  assert (Hb1 : forall b, bput 8 1 b = WOk (ubits 1 b) tt) by reflexivity.
  assert (Hbn : forall x, bput ty (n - 1) x = WOk (ubits (n - 1) x) tt).
  { intros x. unfold bput. destruct (Z.leb_spec 1 (n - 1)); [|lia]. destruct (Z.leb_spec (n - 1) ty); [reflexivity|lia]. }
  assert (Hub : forall a b, a mod 2 ^ (n - 1) = b mod 2 ^ (n - 1) -> ubits (n - 1) a = ubits (n - 1) b).
  { intros a b E. unfold ubits. assert (H : forall k, (k <= Z.to_nat (n - 1))%nat -> ubits_nat k a = ubits_nat k b).
    { induction k as [|k IH]; intros Hk; [reflexivity|]. cbn [ubits_nat]. rewrite IH by lia. f_equal.
      rewrite <- (Z.mod_pow2_bits_low a (n - 1)), <- (Z.mod_pow2_bits_low b (n - 1)) by lia. now rewrite E. }
    apply H. lia. }
  rewrite Hb1. unfold wbind at 1. destruct (Z.ltb_spec v 0) as [Hneg|Hneg].
  - rewrite pow_m2 by lia.
    assert (Hlo : exists d, (fun lo => if (- 2 ^ (ty - 1) <=? lo) && (lo <? 2 ^ (ty - 1)) then sarith m ty (lo - v) else WPanic) (if Z.even (n - 1) then 2 ^ (n - 1) else - 2 ^ (n - 1)) = WOk [] d /\
        - 2 ^ (ty - 1) < d /\ d <= 2 ^ (ty - 1) - 1 /\ (- d) mod 2 ^ (n - 1) = (v + 2 ^ (n - 1)) mod 2 ^ (n - 1)).
    { destruct (Z.even (n - 1)) eqn:Ev; cbv beta.
      - assert (Hon : Z.even n = false) by (replace n with (n - 1 + 1) by lia; rewrite Z.even_add, Ev; reflexivity).
        assert (Hlt : n + 2 <= ty \/ (n + 1 = ty /\ - 2 ^ (n - 1) < v)).
        { destruct Hc as [?|[?|[? ?]]]; [now left|congruence|]. destruct (Z.eq_dec n ty) as [->|]; [congruence|].
          destruct (Z.eq_dec (n + 1) ty); [right; auto|left; lia]. }
        assert (Hfit : 2 ^ (n - 1) - v < 2 ^ (ty - 1) /\ 2 ^ (n - 1) < 2 ^ (ty - 1)).
        { destruct Hlt as [Hlt|[Hlt Hv2]].
          - assert (2 ^ (n + 1) <= 2 ^ (ty - 1)) by (apply Z.pow_le_mono_r; lia).
            assert (2 ^ (n + 1) = 4 * 2 ^ (n - 1)) by (replace (n + 1) with (2 + (n - 1)) by lia; rewrite Z.pow_add_r by lia; reflexivity). lia.
          - replace (ty - 1) with n by lia. lia. }
        exists (2 ^ (n - 1) - v). destruct (Z.leb_spec (- 2 ^ (ty - 1)) (2 ^ (n - 1))); [|lia]. destruct (Z.ltb_spec (2 ^ (n - 1)) (2 ^ (ty - 1))); [|lia].
        cbn [andb]. split; [apply sarith_ok; lia|]. split; [lia|]. split; [lia|].
        replace (- (2 ^ (n - 1) - v)) with (v + 2 ^ (n - 1) + (-2) * 2 ^ (n - 1)) by lia. apply Z_mod_plus_full.
      - exists (- 2 ^ (n - 1) - v). destruct (Z.leb_spec (- 2 ^ (ty - 1)) (- 2 ^ (n - 1))); [|lia]. destruct (Z.ltb_spec (- 2 ^ (n - 1)) (2 ^ (ty - 1))); [|lia].
        cbn [andb]. split; [apply sarith_ok; lia|]. split; [lia|]. split; [lia|]. f_equal. lia. }
    destruct Hlo as (d & Ed & Hd1 & Hd2 & Hd3). cbv zeta. cbv beta in Ed. rewrite Ed. unfold wbind. rewrite sarith_ok by lia. rewrite Hbn. cbn [app]. now rewrite (Hub (- d) _ Hd3).
  - rewrite sarith_ok by lia. unfold wbind. rewrite sarith_ok by lia. rewrite Hbn. cbn [app]. replace (- (0 - v)) with v by lia. reflexivity.
Qed.
Lemma BRT_put_s m ty n v : 2 <= n <= ty -> (n + 2 <= ty \/ Z.even n = true \/ - 2 ^ (n - 1) < v /\ Z.even ty = true) -> sb n v ->
  BRT (bput_s m ty n v) (btake_s n) v n.
Proof.
  intros Hn Hc Hv. eexists. split; [apply bput_s_bits; assumption|].
  assert (Hz1 : forall b, zlen (ubits 1 b) = 1) by (intros; apply ubits_zlen; lia).
  split; [rewrite zlen_app, Hz1, ubits_zlen by lia; lia|]. intros rest. rewrite <- app_assoc. unfold btake_s, pbind.
  rewrite btake_app by apply Hz1. rewrite btake_app by (apply ubits_zlen; lia). rewrite !uval_ubits by lia. unfold pret, sb in *.
  destruct (Z.ltb_spec v 0).
  - rewrite (Z.mod_small (v + _)) by lia. change (1 mod 2 ^ 1 =? 0) with false. cbn [negb]. f_equal. lia.
  - rewrite (Z.mod_small v) by lia. reflexivity.
Qed.
Lemma BRT_put_i32 m v : sb 32 v -> BRT (bput_s m 32 32 v) btake_i32 v 32.
Proof.
  intros Hv. eexists. split; [apply bput_s_bits; [lia|exact Hv|right; left; reflexivity]|].
  assert (Hz1 : forall b, zlen (ubits 1 b) = 1) by (intros; apply ubits_zlen; lia).
  split; [rewrite zlen_app, Hz1, ubits_zlen by lia; lia|]. intros rest. rewrite <- app_assoc, app_assoc. unfold btake_i32, pbind.
  rewrite btake_app by (rewrite zlen_app, Hz1, ubits_zlen by lia; lia). unfold pret. f_equal. rewrite uval_app, !uval_ubits by lia.
  rewrite ubits_zlen by lia. unfold sb in Hv. change (2 ^ (32 - 1)) with 2147483648 in *. change (2 ^ 1) with 2. unfold sext. change (2 ^ (32 - 1)) with 2147483648. change (2 ^ 32) with 4294967296.
  destruct (Z.ltb_spec v 0).
  - rewrite (Z.mod_small 1), (Z.mod_small (v + _)) by lia. destruct (Z.ltb_spec (1 * 2147483648 + (v + 2147483648)) 2147483648); lia.
  - rewrite (Z.mod_small 0), (Z.mod_small v) by lia. destruct (Z.ltb_spec (0 * 2147483648 + v) 2147483648); lia.
Qed.
(** the same bits read by a variable-length integer *)
Lemma svint_read (n : Z) m ty v mn rest : 2 <= n <= ty -> (n + 2 <= ty \/ Z.even n = true \/ - 2 ^ (n - 1) < v /\ Z.even ty = true) -> sb n v ->
  exists bs, bput_s m ty n v = WOk bs tt /\ zlen bs = n /\
   (s <- bbool;; x <- btake (n - 1);; pret ((if s then mn else 0) + x))%parse (bs ++ rest) = POk rest (if v <? 0 then mn + (v + 2 ^ (n - 1)) else v).
Proof.
  intros Hn Hc Hv. eexists. split; [apply bput_s_bits; assumption|].
  assert (Hz1 : forall b, zlen (ubits 1 b) = 1) by (intros; apply ubits_zlen; lia).
  split; [rewrite zlen_app, Hz1, ubits_zlen by lia; lia|]. rewrite <- app_assoc. unfold bbool, pbind, pret.
  rewrite btake_app by apply Hz1. rewrite btake_app by (apply ubits_zlen; lia). rewrite !uval_ubits by lia. unfold sb in *.
  destruct (Z.ltb_spec v 0).
  - rewrite (Z.mod_small (v + _)) by lia. change (1 mod 2 ^ 1 =? 0) with false. cbn [negb]. reflexivity.
  - rewrite (Z.mod_small v) by lia. reflexivity.
Qed.

(** ** Variable-length integers *)
Lemma BRT_uvint flag ty cls bits v : 1 <= flag <= 8 -> ub flag (cls v) -> 1 <= bits (cls v) <= ty -> ub (bits (cls v)) v ->
  BRT (w_uvint flag ty cls bits v) (p_uvint flag bits) v (len_vint flag cls bits v).
Proof. intros Hf Hc Hb Hv. unfold w_uvint, p_uvint, len_vint. eapply BRT_bind; apply BRT_put; assumption. Qed.
Ltac decide_z := repeat match goal with
  | |- context [?a <=? ?b] => destruct (Z.leb_spec a b)
  | |- context [?a <? ?b] => destruct (Z.ltb_spec a b)
  end; cbn [andb Z.eqb Pos.eqb]; cbv iota.
Lemma BRT_uvint8 v : ub 8 v -> BRT (w_uvint8 v) p_uvint8 v (len_uvint8 v).
Proof.
  intros H. unfold ub in H. change (2 ^ 8) with 256 in H. apply BRT_uvint; unfold ub, uvint8_class; decide_z; unfold uvint8_bits; cbn; lia.
Qed.
Lemma BRT_uvint16 v : ub 16 v -> BRT (w_uvint16 v) p_uvint16 v (len_uvint16 v).
Proof.
  intros H. unfold ub in H. change (2 ^ 16) with 65536 in H. apply BRT_uvint; unfold ub, uvint16_class; decide_z; unfold uvint16_bits; cbn; lia.
Qed.
Lemma BRT_uvint32 v : ub 32 v -> BRT (w_uvint32 v) p_uvint32 v (len_uvint32 v).
Proof.
  intros H. unfold ub in H. change (2 ^ 32) with 4294967296 in H. apply BRT_uvint; unfold ub, uvint32_class; decide_z; unfold uvint32_bits; cbn; lia.
Qed.
Lemma BRT_svint m ty cls bits mn v : ub 2 (cls v) -> 2 <= bits (cls v) <= ty ->
  (bits (cls v) + 2 <= ty \/ Z.even (bits (cls v)) = true) -> sb (bits (cls v)) v ->
  BRT (w_svint m ty cls bits v) (p_svint bits mn) (if v <? 0 then mn (cls v) + (v + 2 ^ (bits (cls v) - 1)) else v) (len_vint 2 cls bits v).
Proof.
  intros Hc Hb Ho Hv. unfold w_svint, p_svint, len_vint. eapply BRT_bind; [apply BRT_put; [lia|exact Hc]|].
  pose proof (svint_read (bits (cls v)) m ty v (mn (cls v))) as H.
  destruct (H [] Hb) as (bs & E & Hl & _); [tauto|exact Hv|]. exists bs. split; [exact E|]. split; [exact Hl|]. intros rest.
  destruct (H rest Hb) as (bs' & E' & Hl' & Hp); [tauto|exact Hv|]. rewrite E in E'. inversion E'; subst bs'. exact Hp.
Qed.
Ltac pow_tac := repeat match goal with |- context [2 ^ ?k] => let x := eval vm_compute in (2 ^ k) in progress change (2 ^ k) with x end.
Ltac pow_hyps := repeat match goal with H : context [2 ^ ?k] |- _ => let x := eval vm_compute in (2 ^ k) in progress change (2 ^ k) with x in H end.
Lemma BRT_svint_c m ty cls bits mn v c n : cls v = c -> bits c = n -> ub 2 c -> 2 <= n <= ty -> (n + 2 <= ty \/ Z.even n = true) -> sb n v ->
  BRT (w_svint m ty cls bits v) (p_svint bits mn) (if v <? 0 then mn c + (v + 2 ^ (n - 1)) else v) (len_vint 2 cls bits v).
Proof. intros <- <-. intros. now apply BRT_svint. Qed.
Lemma in_rng_spec lo hi v : reflect (lo <= v <= hi) (in_rng lo hi v).
Proof. apply iff_reflect. unfold in_rng. rewrite andb_true_iff, !Z.leb_le. reflexivity. Qed.
Lemma svint12_cases v : -2048 <= v <= 2047 ->
  (svint12_class v = 0 /\ -4 <= v <= 3) \/
  (svint12_class v = 1 /\ -32 <= v <= 31) \/
  (svint12_class v = 2 /\ -256 <= v <= 255) \/
  (svint12_class v = 3 /\ -2048 <= v <= 2047).
Proof.
  intros H. unfold svint12_class.
  repeat match goal with |- context [in_rng ?a ?b v] => destruct (in_rng_spec a b v) end; lia.
Qed.
Lemma svint13_cases v : -4096 <= v <= 4095 ->
  (svint13_class v = 0 /\ -16 <= v <= 15) \/
  (svint13_class v = 1 /\ -64 <= v <= 63) \/
  (svint13_class v = 2 /\ -512 <= v <= 511) \/
  (svint13_class v = 3 /\ -4096 <= v <= 4095).
Proof.
  intros H. unfold svint13_class.
  repeat match goal with |- context [in_rng ?a ?b v] => destruct (in_rng_spec a b v) end; lia.
Qed.
Lemma svint14_cases v : -8192 <= v <= 8191 ->
  (svint14_class v = 0 /\ -8 <= v <= 7) \/
  (svint14_class v = 1 /\ -64 <= v <= 63) \/
  (svint14_class v = 2 /\ -256 <= v <= 255) \/
  (svint14_class v = 3 /\ -8192 <= v <= 8191).
Proof.
  intros H. unfold svint14_class.
  repeat match goal with |- context [in_rng ?a ?b v] => destruct (in_rng_spec a b v) end; lia.
Qed.
Lemma svint16_cases v : -32768 <= v <= 32767 ->
  (svint16_class v = 0 /\ -128 <= v <= 127) \/
  (svint16_class v = 1 /\ -2048 <= v <= 2047) \/
  (svint16_class v = 2 /\ -4096 <= v <= 4095) \/
  (svint16_class v = 3 /\ -32768 <= v <= 32767).
Proof.
  intros H. unfold svint16_class.
  repeat match goal with |- context [in_rng ?a ?b v] => destruct (in_rng_spec a b v) end; lia.
Qed.
Lemma svint24_cases v : -8388608 <= v <= 8388607 ->
  (svint24_class v = 0 /\ -32768 <= v <= 32767) \/
  (svint24_class v = 1 /\ -262144 <= v <= 262143) \/
  (svint24_class v = 2 /\ -1048576 <= v <= 1048575) \/
  (svint24_class v = 3 /\ (-8388608 <= v <= 8388607 /\ ~ (-1048576 <= v <= 1048575))).
Proof.
  intros H. unfold svint24_class.
  repeat match goal with |- context [in_rng ?a ?b v] => destruct (in_rng_spec a b v) end; lia.
Qed.
Lemma BRT_svint12 m v : sb 12 v -> BRT (w_svint12 m v) p_svint12 v (len_svint12 v).
Proof.
  intros H. unfold sb in H. change (2 ^ (12 - 1)) with 2048 in H. destruct (svint12_cases v ltac:(lia)) as [[E Hv]|[[E Hv]|[[E Hv]|[E Hv]]]];
  (eapply BRT_conv; [eapply BRT_svint_c; [exact E|vm_compute; reflexivity|..]|..|reflexivity]); unfold ub, sb;
  match goal with
  | |- BRT _ _ _ _ => fail
  | |- _ \/ _ => first [right; reflexivity|left; lia]
  | |- (if _ then _ else _) = _ => cbn [svint12_min Z.eqb]; pow_tac; decide_z; lia
  | |- _ => pow_tac; lia
  end.
Qed.
Lemma BRT_svint13 m v : sb 13 v -> BRT (w_svint13 m v) p_svint13 v (len_svint13 v).
Proof.
  intros H. unfold sb in H. change (2 ^ (13 - 1)) with 4096 in H. destruct (svint13_cases v ltac:(lia)) as [[E Hv]|[[E Hv]|[[E Hv]|[E Hv]]]];
  (eapply BRT_conv; [eapply BRT_svint_c; [exact E|vm_compute; reflexivity|..]|..|reflexivity]); unfold ub, sb;
  match goal with
  | |- BRT _ _ _ _ => fail
  | |- _ \/ _ => first [right; reflexivity|left; lia]
  | |- (if _ then _ else _) = _ => cbn [svint13_min Z.eqb]; pow_tac; decide_z; lia
  | |- _ => pow_tac; lia
  end.
Qed.
Lemma BRT_svint14 m v : sb 14 v -> BRT (w_svint14 m v) p_svint14 v (len_svint14 v).
Proof.
  intros H. unfold sb in H. change (2 ^ (14 - 1)) with 8192 in H. destruct (svint14_cases v ltac:(lia)) as [[E Hv]|[[E Hv]|[[E Hv]|[E Hv]]]];
  (eapply BRT_conv; [eapply BRT_svint_c; [exact E|vm_compute; reflexivity|..]|..|reflexivity]); unfold ub, sb;
  match goal with
  | |- BRT _ _ _ _ => fail
  | |- _ \/ _ => first [right; reflexivity|left; lia]
  | |- (if _ then _ else _) = _ => cbn [svint14_min Z.eqb]; pow_tac; decide_z; lia
  | |- _ => pow_tac; lia
  end.
Qed.
Lemma BRT_svint16 m v : sb 16 v -> BRT (w_svint16 m v) p_svint16 v (len_svint16 v).
Proof.
  intros H. unfold sb in H. change (2 ^ (16 - 1)) with 32768 in H. destruct (svint16_cases v ltac:(lia)) as [[E Hv]|[[E Hv]|[[E Hv]|[E Hv]]]];
  (eapply BRT_conv; [eapply BRT_svint_c; [exact E|vm_compute; reflexivity|..]|..|reflexivity]); unfold ub, sb;
  match goal with
  | |- BRT _ _ _ _ => fail
  | |- _ \/ _ => first [right; reflexivity|left; lia]
  | |- (if _ then _ else _) = _ => cbn [svint16_min Z.eqb]; pow_tac; decide_z; lia
  | |- _ => pow_tac; lia
  end.
Qed.
(** what a SVINT24 becomes on the wire: values that need 24 bits and are negative lose their sign *)
Definition img24 (v : Z) : Z := if v <? -1048576 then v + 16777216 else v.
Lemma BRT_svint24 m v : sb 24 v -> BRT (w_svint24 m v) p_svint24 (img24 v) (len_svint24 v).
Proof.
  intros H. unfold sb in H. change (2 ^ (24 - 1)) with 8388608 in H. destruct (svint24_cases v ltac:(lia)) as [[E Hv]|[[E Hv]|[[E Hv]|[E Hv]]]];
  (eapply BRT_conv; [eapply BRT_svint_c; [exact E|vm_compute; reflexivity|..]|..|reflexivity]); unfold ub, sb;
  match goal with
  | |- BRT _ _ _ _ => fail
  | |- _ \/ _ => first [right; reflexivity|left; lia]
  | |- (if _ then _ else _) = _ => cbn [svint24_min Z.eqb]; unfold img24; pow_tac; decide_z; lia
  | |- _ => pow_tac; lia
  end.
Qed.

Lemma BRT_clock m h t : sb 32 h -> ub 32 t -> BRT (w_clock m h t) p_clock (h, t) 64.
Proof.
  intros Hh Ht. unfold w_clock, p_clock. eapply BRT_conv; [eapply BRT_bind; [apply BRT_put_i32; exact Hh|eapply BRT_end; [apply BRT_put; [lia|exact Ht]|reflexivity]]|reflexivity|reflexivity].
Qed.
(** lists *)
Lemma BRT_list_img {A} (w : A -> BW) (p : bitparser A) (img : A -> A) (len : A -> Z) l n : n = zlen l ->
  (forall x, In x l -> BRT (w x) p (img x) (len x)) -> BRT (bw_list w l) (count p n) (map img l) (zsum (map len l)).
Proof.
  intros -> Hx. unfold count, zlen. rewrite Nat2Z.id. induction l as [|x l IH]; cbn [bw_list count_nat length map zsum].
  - apply BRT_ret.
  - eapply BRT_bind; [apply Hx; now left|]. destruct IH as (bs & Hw & Hl & Hp); [intros; apply Hx; now right|].
    exists bs. rewrite Hw. repeat split; [exact Hl|]. intros rest. unfold pbind, pret. now rewrite Hp.
Qed.
Lemma BRT_list {A} (w : A -> BW) (p : bitparser A) (len : A -> Z) l n : n = zlen l ->
  (forall x, In x l -> BRT (w x) p x (len x)) -> BRT (bw_list w l) (count p n) l (zsum (map len l)).
Proof. intros Hn Hx. rewrite <- (map_id l) at 2. apply (BRT_list_img w p (fun x => x)); assumption. Qed.
(** optional fields *)
Definition is_some {A} (o : option A) : bool := match o with Some _ => true | None => false end.
Definition opt_len {A} (len : A -> Z) (o : option A) : Z := match o with Some a => len a | None => 0 end.
Lemma BRT_when_img {A} (w : A -> BW) (p : bitparser A) (img : A -> A) (len : A -> Z) o fp mask :
  field_present fp mask = is_some o -> (forall a, o = Some a -> BRT (w a) p (img a) (len a)) ->
  BRT (w_opt w o) (p_when fp mask p) (option_map img o) (opt_len len o).
Proof.
  intros Hf Hx. unfold p_when. rewrite Hf. destruct o as [a|]; cbn [is_some w_opt option_map opt_len].
  - eapply BRT_end; [apply Hx; reflexivity|reflexivity].
  - apply BRT_ret.
Qed.
Lemma option_map_id {A} (o : option A) : option_map (fun x => x) o = o.
Proof. destruct o; reflexivity. Qed.
Lemma BRT_when {A} (w : A -> BW) (p : bitparser A) (len : A -> Z) o fp mask :
  field_present fp mask = is_some o -> (forall a, o = Some a -> BRT (w a) p a (len a)) ->
  BRT (w_opt w o) (p_when fp mask p) o (opt_len len o).
Proof. intros Hf Hx. rewrite <- (option_map_id o) at 2. apply (BRT_when_img w p (fun x => x)); assumption. Qed.

(** ** Fields-present words: disjunctions of [if present then mask else 0] *)
Definition fbit (b : bool) (mask : Z) : Z := if b then mask else 0.
Lemma field_present_bit fp k : 0 <= k -> field_present fp (2 ^ k) = Z.testbit fp k.
Proof.
  intros H. unfold field_present. destruct (Z.testbit fp k) eqn:E.
  - destruct (Z.eqb_spec (Z.land fp (2 ^ k)) 0) as [E2|]; [|reflexivity]. exfalso.
    assert (Z.testbit (Z.land fp (2 ^ k)) k = true) by (rewrite Z.land_spec, E, Z.pow2_bits_true by exact H; reflexivity). rewrite E2, Z.bits_0 in *. discriminate.
  - assert (Z.land fp (2 ^ k) = 0) as ->; [|reflexivity]. apply Z.bits_inj'. intros j Hj. rewrite Z.land_spec, Z.bits_0.
    destruct (Z.eq_dec j k) as [->|Hn]; [now rewrite E|]. rewrite (Z.pow2_bits_false k j) by lia. apply andb_false_r.
Qed.
Lemma fbit_bit b mask k : Z.testbit (fbit b mask) k = b && Z.testbit mask k.
Proof. destruct b; cbn [fbit andb]; [reflexivity|apply Z.bits_0]. Qed.
Lemma ub_fbit n b mask : ub n mask -> ub n (fbit b mask).
Proof. unfold ub. destruct b; cbn [fbit]; lia. Qed.
Lemma ub_lor n a b : 0 <= n -> ub n a -> ub n b -> ub n (Z.lor a b).
Proof.
  unfold ub. intros Hn Ha Hb. split; [apply Z.lor_nonneg; lia|].
  destruct (Z.eq_dec (Z.lor a b) 0) as [->|Hz]; [apply Z.pow_pos_nonneg; lia|].
  assert (0 < Z.lor a b) by (assert (0 <= Z.lor a b) by (apply Z.lor_nonneg; lia); lia).
  apply Z.log2_lt_pow2; [assumption|]. rewrite Z.log2_lor by lia.
  destruct (Z.eq_dec a 0) as [->|]; destruct (Z.eq_dec b 0) as [->|]; try (rewrite Z.lor_0_l in Hz; lia);
  repeat apply Z.max_lub_lt; try (apply Z.log2_lt_pow2; lia); change (Z.log2 0) with 0;
  (destruct (Z.eq_dec n 0) as [->|]; [change (2 ^ 0) with 1 in *; lia|lia]).
Qed.
(** decides [field_present (disjunction) mask = condition] for masks that are powers of two *)
Ltac fp_tac :=
  match goal with |- field_present _ ?mask = _ =>
    let k := eval vm_compute in (Z.log2 mask) in change mask with (2 ^ k) end;
  rewrite field_present_bit by lia; rewrite ?Z.lor_spec, ?fbit_bit;
  repeat match goal with |- context [Z.testbit ?c ?k] => let r := eval vm_compute in (Z.testbit c k) in change (Z.testbit c k) with r end;
  rewrite ?andb_true_r, ?andb_false_r, ?orb_false_r, ?orb_false_l; cbn [orb andb];
  first [reflexivity | congruence | (repeat match goal with H : is_some _ = is_some _ |- _ => rewrite H end; rewrite ?andb_diag; reflexivity)
        | (repeat match goal with H : is_some _ = is_some _ |- _ => rewrite <- H end; rewrite ?andb_diag; reflexivity)].
Ltac ub_word := repeat first [apply ub_lor; [lia| |] | apply ub_fbit; unfold ub; match goal with |- 0 <= _ < 2 ^ ?k => let r := eval vm_compute in (2 ^ k) in change (2 ^ k) with r end; lia].

(** ** Parsers on arbitrary bits *)
Definition BExt {A} (p : bitparser A) : Prop :=
  forall i r a, p i = POk r a -> (exists c, i = c ++ r) /\ forall x, p (i ++ x) = POk (r ++ x) a.
Definition BSafe {A} (p : bitparser A) (P : A -> Prop) : Prop :=
  forall i, match p i with POk r a => P a | PErr _ => True | PPanic => False end.
Lemma BExt_ret {A} (a : A) : BExt (pret a).
Proof. intros i r b H. inversion H; subst. split; [exists []; reflexivity | reflexivity]. Qed.
Lemma BExt_bind {A B} (p : bitparser A) (f : A -> bitparser B) : BExt p -> (forall a, BExt (f a)) -> BExt (pbind p f).
Proof.
  intros Hp Hf i r b H. unfold pbind in *. destruct (p i) as [r1 a| |] eqn:E; try discriminate.
  destruct (Hp _ _ _ E) as [[c1 ->] Hx1]. destruct (Hf _ _ _ _ H) as [[c2 ->] Hx2].
  split; [exists (c1 ++ c2); now rewrite app_assoc|]. intros x. rewrite Hx1. apply Hx2.
Qed.
Lemma BExt_take n : BExt (btake n).
Proof.
  intros i r a H. unfold btake in *. destruct (Z.ltb_spec (zlen i) n) as [|Hl]; [discriminate|]. inversion H; subst.
  split; [exists (firstn (Z.to_nat n) i); symmetry; apply firstn_skipn|]. intros x. rewrite zlen_app. pose proof (zlen_nonneg x).
  destruct (Z.ltb_spec (zlen i + zlen x) n) as [|_]; [lia|]. rewrite skipn_app, firstn_app.
  replace (Z.to_nat n - length i)%nat with 0%nat by (unfold zlen in Hl; lia). rewrite firstn_O, app_nil_r, skipn_O. reflexivity.
Qed.
Lemma BExt_bool : BExt bbool.
Proof. apply BExt_bind; [apply BExt_take|intros; apply BExt_ret]. Qed.
Lemma BExt_count_nat {A} (p : bitparser A) n : BExt p -> BExt (count_nat p n).
Proof. intros Hp. induction n; cbn [count_nat]; [apply BExt_ret|]. apply BExt_bind; [exact Hp|]. intros a. apply BExt_bind; [exact IHn|]. intros. apply BExt_ret. Qed.
Lemma BExt_count {A} (p : bitparser A) n : BExt p -> BExt (count p n).
Proof. apply BExt_count_nat. Qed.
Lemma BExt_when {A} fp mask (p : bitparser A) : BExt p -> BExt (p_when fp mask p).
Proof. intros Hp. unfold p_when. destruct (field_present fp mask); [apply BExt_bind; [exact Hp|intros; apply BExt_ret]|apply BExt_ret]. Qed.
Lemma BSafe_ret {A} (a : A) (P : A -> Prop) : P a -> BSafe (pret a) P.
Proof. intros H i. exact H. Qed.
Lemma BSafe_bind {A B} (p : bitparser A) (f : A -> bitparser B) P Q : BSafe p P -> (forall a, P a -> BSafe (f a) Q) -> BSafe (pbind p f) Q.
Proof. intros Hp Hf i. unfold pbind. specialize (Hp i). destruct (p i); auto. exact (Hf a Hp rest). Qed.
Lemma BSafe_weaken {A} (p : bitparser A) (P Q : A -> Prop) : BSafe p P -> (forall a, P a -> Q a) -> BSafe p Q.
Proof. intros Hp H i. specialize (Hp i). destruct (p i); auto. Qed.
Lemma BSafe_take n : 0 <= n -> BSafe (btake n) (ub n).
Proof.
  intros Hn i. unfold btake. destruct (Z.ltb_spec (zlen i) n) as [|Hl]; [exact I|].
  pose proof (uval_bound (firstn (Z.to_nat n) i)) as H. unfold ub. replace n with (zlen (firstn (Z.to_nat n) i)) at 3; [exact H|].
  unfold zlen in *. rewrite firstn_length. lia.
Qed.
Lemma BSafe_true {A} (p : bitparser A) P : BSafe p P -> BSafe p (fun _ => True).
Proof. intros H. eapply BSafe_weaken; [exact H|auto]. Qed.
Lemma BSafe_bool : BSafe bbool (fun _ => True).
Proof. eapply BSafe_bind; [apply BSafe_take; lia|]. intros. now apply BSafe_ret. Qed.
Lemma BSafe_count {A} (p : bitparser A) P n : BSafe p P -> BSafe (count p n) (fun l => Forall P l /\ zlen l = Z.of_nat (Z.to_nat n)).
Proof.
  intros Hp. unfold count. induction (Z.to_nat n) as [|k IH]; cbn [count_nat].
  - apply BSafe_ret. split; [constructor|reflexivity].
  - eapply BSafe_bind; [exact Hp|]. intros a Ha. eapply BSafe_bind; [exact IH|]. intros l [Hl Hk]. apply BSafe_ret. split; [now constructor|].
    rewrite zlen_cons. lia.
Qed.
Lemma BSafe_when {A} fp mask (p : bitparser A) P : BSafe p P -> BSafe (p_when fp mask p) (fun o => forall a, o = Some a -> P a).
Proof.
  intros Hp. unfold p_when. destruct (field_present fp mask); [|apply BSafe_ret; discriminate].
  eapply BSafe_bind; [exact Hp|]. intros a Ha. apply BSafe_ret. intros b E. congruence.
Qed.
Lemma BSafe_take_s n : 1 <= n -> BSafe (btake_s n) (sb n).
Proof.
  intros Hn. unfold btake_s. eapply BSafe_bind; [apply BSafe_take; lia|]. intros s Hs. eapply BSafe_bind; [apply BSafe_take; lia|]. intros v Hv.
  apply BSafe_ret. unfold ub, sb in *. destruct (s =? 0); lia.
Qed.
Lemma BSafe_i32 : BSafe btake_i32 (sb 32).
Proof.
  unfold btake_i32. eapply BSafe_bind; [apply BSafe_take; lia|]. intros v Hv. apply BSafe_ret. unfold ub, sb, sext in *.
  change (2 ^ (32 - 1)) with 2147483648. change (2 ^ 32) with 4294967296 in *. destruct (Z.ltb_spec v 2147483648); lia.
Qed.
Lemma BExt_take_s n : BExt (btake_s n).
Proof. unfold btake_s. repeat (apply BExt_bind; [apply BExt_take|intros]). apply BExt_ret. Qed.
Lemma BExt_i32 : BExt btake_i32.
Proof. apply BExt_bind; [apply BExt_take|intros; apply BExt_ret]. Qed.
Lemma BExt_uvint f b : BExt (p_uvint f b).
Proof. apply BExt_bind; [apply BExt_take|intros; apply BExt_take]. Qed.
Lemma BExt_svint b mn : BExt (p_svint b mn).
Proof. unfold p_svint. apply BExt_bind; [apply BExt_take|intros]. apply BExt_bind; [apply BExt_bool|intros]. apply BExt_bind; [apply BExt_take|intros; apply BExt_ret]. Qed.
Lemma BExt_clock : BExt p_clock.
Proof. apply BExt_bind; [apply BExt_i32|intros]. apply BExt_bind; [apply BExt_take|intros; apply BExt_ret]. Qed.
Lemma pow_mono_ub a b v : 0 <= a <= b -> ub a v -> ub b v.
Proof. intros H [H1 H2]. split; [exact H1|]. eapply Z.lt_le_trans; [exact H2|]. apply Z.pow_le_mono_r; lia. Qed.
Lemma pow_mono_sb a b v : 1 <= a <= b -> sb a v -> sb b v.
Proof. intros H [H1 H2]. assert (2 ^ (a - 1) <= 2 ^ (b - 1)) by (apply Z.pow_le_mono_r; lia). unfold sb. lia. Qed.
Lemma BSafe_uvint f b n : 0 <= f -> (forall c, ub f c -> 0 <= b c <= n) -> BSafe (p_uvint f b) (ub n).
Proof.
  intros Hf Hb. eapply BSafe_bind; [apply BSafe_take; lia|]. intros c Hc. cbv beta. specialize (Hb c Hc).
  eapply BSafe_weaken; [apply BSafe_take; lia|]. intros v. apply pow_mono_ub. lia.
Qed.
Lemma BSafe_uvint8 : BSafe p_uvint8 (ub 8).
Proof. apply BSafe_uvint; [lia|]. intros c _. unfold uvint8_bits. destruct (c =? 0); lia. Qed.
Lemma BSafe_uvint16 : BSafe p_uvint16 (ub 16).
Proof. apply BSafe_uvint; [lia|]. intros c _. unfold uvint16_bits. destruct (c =? 0), (c =? 1), (c =? 2); lia. Qed.
Lemma BSafe_uvint32 : BSafe p_uvint32 (ub 32).
Proof. apply BSafe_uvint; [lia|]. intros c _. unfold uvint32_bits. destruct (c =? 0), (c =? 1), (c =? 2); lia. Qed.
Lemma BSafe_svint b mn n : (forall c, 2 <= b c <= n /\ mn c = - 2 ^ (b c - 1)) -> BSafe (p_svint b mn) (sb n).
Proof.
  intros Hb. eapply BSafe_bind; [apply BSafe_take; lia|]. intros c Hc. cbv beta. destruct (Hb c) as [H1 H2].
  eapply BSafe_bind; [apply BSafe_bool|]. intros s _. eapply BSafe_bind; [apply BSafe_take; lia|]. intros v Hv. apply BSafe_ret.
  apply (pow_mono_sb (b c) n); [lia|]. unfold ub, sb in *. rewrite H2. destruct s; lia.
Qed.
Lemma BSafe_svint12 : BSafe p_svint12 (sb 12).
Proof. apply BSafe_svint. intros c. unfold svint12_bits, svint12_min. destruct (c =? 0), (c =? 1), (c =? 2); split; try lia; reflexivity. Qed.
Lemma BSafe_svint13 : BSafe p_svint13 (sb 13).
Proof. apply BSafe_svint. intros c. unfold svint13_bits, svint13_min. destruct (c =? 0), (c =? 1), (c =? 2); split; try lia; reflexivity. Qed.
Lemma BSafe_svint14 : BSafe p_svint14 (sb 14).
Proof. apply BSafe_svint. intros c. unfold svint14_bits, svint14_min. destruct (c =? 0), (c =? 1), (c =? 2); split; try lia; reflexivity. Qed.
Lemma BSafe_svint16 : BSafe p_svint16 (sb 16).
Proof. apply BSafe_svint. intros c. unfold svint16_bits, svint16_min. destruct (c =? 0), (c =? 1), (c =? 2); split; try lia; reflexivity. Qed.
(** the missing sign lets a SVINT24 reach 2^24 - 1 *)
Lemma BSafe_svint24 : BSafe p_svint24 (sb 25).
Proof.
  unfold p_svint24, p_svint. eapply BSafe_bind; [apply BSafe_take; lia|]. intros c Hc. cbv beta. eapply BSafe_bind; [apply BSafe_bool|]. intros s _.
  eapply BSafe_bind with (P := ub 23).
  - eapply BSafe_weaken; [apply BSafe_take; unfold svint24_bits; destruct (c =? 0), (c =? 1), (c =? 2); lia|].
    intros v. apply pow_mono_ub. unfold svint24_bits; destruct (c =? 0), (c =? 1), (c =? 2); lia.
  - intros v Hv. apply BSafe_ret. unfold ub, sb, svint24_min in *. change (2 ^ 23) with 8388608 in *. change (2 ^ (25 - 1)) with 16777216.
    destruct s, (c =? 0), (c =? 1), (c =? 2); lia.
Qed.
Lemma BSafe_clock : BSafe p_clock (fun c => sb 32 (fst c) /\ ub 32 (snd c)).
Proof. eapply BSafe_bind; [apply BSafe_i32|]. intros h Hh. eapply BSafe_bind; [apply BSafe_take; lia|]. intros t Ht. apply BSafe_ret. auto. Qed.

Create HintDb bext discriminated.
Create HintDb bsafe discriminated.
Create HintDb brt discriminated.
Global Hint Resolve BExt_ret BExt_take BExt_bool BExt_count BExt_when BExt_take_s BExt_i32 BExt_clock BExt_uvint BExt_svint : bext.
Global Hint Resolve BSafe_bool BSafe_i32 BSafe_uvint8 BSafe_uvint16 BSafe_uvint32 BSafe_svint12 BSafe_svint13 BSafe_svint14 BSafe_svint16 BSafe_svint24 BSafe_clock : bsafe.
Global Hint Extern 2 (BSafe (btake _) _) => apply BSafe_take; lia : bsafe.
Global Hint Extern 2 (BSafe (btake_s _) _) => apply BSafe_take_s; lia : bsafe.
Global Hint Extern 3 (BSafe (count _ _) _) => eapply BSafe_count : bsafe.
Global Hint Extern 3 (BSafe (p_when _ _ _) _) => eapply BSafe_when : bsafe.
Ltac bext := repeat match goal with
  | |- BExt (pbind _ _) => apply BExt_bind; [|intros]
  | |- BExt (pret _) => apply BExt_ret
  | |- BExt (count _ _) => apply BExt_count
  | |- BExt (p_when _ _ _) => apply BExt_when
  | |- BExt p_uvint8 => apply BExt_uvint
  | |- BExt p_uvint16 => apply BExt_uvint
  | |- BExt p_uvint32 => apply BExt_uvint
  | |- BExt p_svint12 => apply BExt_svint
  | |- BExt p_svint13 => apply BExt_svint
  | |- BExt p_svint14 => apply BExt_svint
  | |- BExt p_svint16 => apply BExt_svint
  | |- BExt p_svint24 => apply BExt_svint
  | |- BExt (match ?x with _ => _ end) => destruct x
  | |- BExt _ => solve [auto with bext]
  end.
Ltac bsafe_atom := first [solve [eauto 4 with bsafe] | eapply BSafe_count; bsafe_atom | eapply BSafe_when; bsafe_atom].
Ltac bsafe := repeat match goal with
  | |- BSafe (pret _) _ => apply BSafe_ret
  | |- BSafe (pbind _ _) _ => eapply BSafe_bind; [bsafe_atom|intros; cbv beta in *]
  | |- BSafe (match ?x with _ => _ end) _ => destruct x eqn:?
  | |- BSafe _ (fun _ => True) => eapply BSafe_true; bsafe_atom
  | |- BSafe _ _ => bsafe_atom
  end.
(** a field that fits: literals and hypotheses *)
Ltac ubt := first [assumption | solve [eauto 3] | unfold ub, sb in *; pow_hyps; pow_tac; lia].
Global Hint Extern 2 (BRT (bput _ _ _) (btake _) _ _) => apply BRT_put; [lia|ubt] : brt.
Global Hint Extern 2 (BRT (bput_s _ _ _ _) (btake_s _) _ _) => apply BRT_put_s; [lia|first [right; left; reflexivity|left; lia]|ubt] : brt.
Global Hint Extern 2 (BRT (w_uvint8 _) _ _ _) => apply BRT_uvint8; ubt : brt.
Global Hint Extern 2 (BRT (w_uvint16 _) _ _ _) => apply BRT_uvint16; ubt : brt.
Global Hint Extern 2 (BRT (w_uvint32 _) _ _ _) => apply BRT_uvint32; ubt : brt.
Global Hint Extern 2 (BRT (w_svint12 _ _) _ _ _) => apply BRT_svint12; ubt : brt.
Global Hint Extern 2 (BRT (w_svint13 _ _) _ _ _) => apply BRT_svint13; ubt : brt.
Global Hint Extern 2 (BRT (w_svint14 _ _) _ _ _) => apply BRT_svint14; ubt : brt.
Global Hint Extern 2 (BRT (w_svint16 _ _) _ _ _) => apply BRT_svint16; ubt : brt.
Global Hint Extern 2 (BRT (w_svint24 _ _) _ _ _) => apply BRT_svint24; ubt : brt.
Global Hint Resolve BRT_ret : brt.
Global Hint Resolve BRT_clock : brt.
Global Hint Extern 3 (BRT (w_opt _ _) (p_when _ _ _) _ _) => first
  [ eapply BRT_when; [fp_tac | intros; solve [eauto 6 with brt]] | eapply BRT_when_img; [fp_tac | intros; solve [eauto 6 with brt]] ] : brt.
Ltac brt_step := match goal with
  | |- BRT (wret _) (pret _) _ _ => apply BRT_ret
  | |- BRT (wbind _ _) (pbind _ _) _ _ => eapply BRT_bind; [solve [eauto 6 with brt]|]; cbv beta
  end.
Ltac brt := eapply BRT_conv; [repeat brt_step | try reflexivity | try reflexivity; try lia].

Arguments btake : simpl never.
Arguments btake_s : simpl never.
Arguments bput : simpl never.
Arguments bput_s : simpl never.
Arguments ubits : simpl never.
Arguments p_when : simpl never.
Arguments w_opt : simpl never.
Arguments field_present : simpl never.
Ltac bfin := repeat match goal with |- _ /\ _ => split end; auto.

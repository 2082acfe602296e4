(** Base layer: integers, byte strings, the nom parser monad, the BufMut writer
    monad, and the generic reasoning principles used by all PDU codecs.

    Models external crates used by /repo/dis-rs (see /repo/dis-rs/Cargo.toml:24-25):
    nom 7.1.3 (complete parsers) and bytes 1.4 (BufMut). *)
From Coq Require Export List ZArith Lia Bool.
Export ListNotations.
Global Open Scope Z_scope.

(** * Rust integer types, as ranges of Z *)
Definition u8 (v : Z) : Prop := 0 <= v < 256.
Definition u16 (v : Z) : Prop := 0 <= v < 65536.
Definition u32 (v : Z) : Prop := 0 <= v < 4294967296.
Definition u64 (v : Z) : Prop := 0 <= v < 18446744073709551616.
Definition i32 (v : Z) : Prop := -2147483648 <= v < 2147483648.
Definition i16 (v : Z) : Prop := -32768 <= v < 32768.
Definition i8 (v : Z) : Prop := -128 <= v < 128.

(** Length of a list as Z (Rust: [len() as usize]). *)
Definition zlen {A} (l : list A) : Z := Z.of_nat (length l).
Arguments zlen : simpl never.

(** * Arithmetic modes
    Rust's [+ - *] on integers panics on overflow when overflow checks are on
    (debug builds) and wraps otherwise (release builds). *)
Inductive mode := Checked | Wrapping.

(** * Parser results (nom::IResult), with panics made explicit *)
Inductive nomkind := Eof | Many1 | OutOfFuel.
Inductive pres (I A : Type) :=
| POk (rest : I) (a : A)
| PErr (k : nomkind)      (* Err(Err::Error(Error { code: k, .. })) *)
| PPanic.
Arguments POk {I A}. Arguments PErr {I A}. Arguments PPanic {I A}.

Definition parser (I A : Type) := I -> pres I A.
Definition bparser := parser (list Z).

Definition pret {I A} (a : A) : parser I A := fun i => POk i a.
Definition pfail {I A} (k : nomkind) : parser I A := fun _ => PErr k.
Definition ppanic {I A} : parser I A := fun _ => PPanic.
Definition pbind {I A B} (p : parser I A) (f : A -> parser I B) : parser I B :=
  fun i => match p i with
           | POk r a => f a r
           | PErr k => PErr k
           | PPanic => PPanic
           end.
Declare Scope parse_scope.
Delimit Scope parse_scope with parse.
Notation "x <- p ;; q" := (pbind p (fun x => q))
  (at level 81, p at next level, right associativity) : parse_scope.
Notation "' pat <- p ;; q" := (pbind p (fun x => match x with pat => q end))
  (at level 81, pat pattern, p at next level, right associativity) : parse_scope.

(** * Big-endian byte encodings *)
Fixpoint be (n : nat) (v : Z) : list Z :=
  match n with
  | O => []
  | S k => (v / 256 ^ Z.of_nat k) mod 256 :: be k v
  end.
Definition be_val (l : list Z) : Z := fold_left (fun acc b => acc * 256 + b) l 0.

(** nom::number::complete::be_u8/16/32/64: [n] bytes, Eof when too short.
    be_f32 / be_f64 are [from_bits] of the same: floats are their bit patterns. *)
Definition be_u (n : nat) : bparser Z := fun i =>
  if (length i <? n)%nat then PErr Eof else POk (skipn n i) (be_val (firstn n i)).
Definition be_u8 : bparser Z := be_u 1.
Definition be_u16 : bparser Z := be_u 2.
Definition be_u32 : bparser Z := be_u 4.
Definition be_u64 : bparser Z := be_u 8.
Definition be_f32 : bparser Z := be_u 4.
Definition be_f64 : bparser Z := be_u 8.
(** nom be_i32 / be_i8: two's complement *)
Definition sext (bits : Z) (v : Z) : Z := if v <? 2 ^ (bits - 1) then v else v - 2 ^ bits.
Definition be_i32 : bparser Z := pbind (be_u 4) (fun v => pret (sext 32 v)).
Definition be_i16 : bparser Z := pbind (be_u 2) (fun v => pret (sext 16 v)).
Definition be_i8 : bparser Z := pbind (be_u 1) (fun v => pret (sext 8 v)).

(** nom::bytes::complete::take *)
Definition take (n : Z) : bparser (list Z) := fun i =>
  if zlen i <? n then PErr Eof
  else POk (skipn (Z.to_nat n) i) (firstn (Z.to_nat n) i).

(** nom::multi::count *)
Fixpoint count_nat {I A} (p : parser I A) (n : nat) : parser I (list A) :=
  match n with
  | O => pret []
  | S k => pbind p (fun a => pbind (count_nat p k) (fun l => pret (a :: l)))
  end.
Definition count {I A} (p : parser I A) (n : Z) : parser I (list A) := count_nat p (Z.to_nat n).

(** nom::multi::many1 / many0 (nom 7.1.3, src/multi/mod.rs). [len] is InputLength.
    The first error of many1 keeps its kind (Error::append returns the inner error);
    a later error ends the loop; a parser that consumes nothing is an error. *)
Fixpoint many_loop {I A} (len : I -> Z) (p : parser I A) (fuel : nat) (acc : list A) : parser I (list A) :=
  fun i =>
  match fuel with
  | O => PErr OutOfFuel
  | S f =>
    match p i with
    | PErr _ => POk i (rev acc)
    | PPanic => PPanic
    | POk r a => if len r =? len i then PErr Many1 else many_loop len p f (a :: acc) r
    end
  end.
Definition many1 {I A} (len : I -> Z) (p : parser I A) : parser I (list A) := fun i =>
  match p i with
  | PErr k => PErr k
  | PPanic => PPanic
  | POk r a => many_loop len p (S (Z.to_nat (len r))) [a] r
  end.
Definition many0 {I A} (len : I -> Z) (p : parser I A) : parser I (list A) := fun i =>
  many_loop len p (S (Z.to_nat (len i))) [] i.

(** * Writer monad: an append-only buffer (bytes::BufMut for BytesMut) *)
Inductive wres (O A : Type) := WOk (bs : list O) (a : A) | WPanic.
Arguments WOk {O A}. Arguments WPanic {O A}.
Definition W := wres Z.
Definition wret {O A} (a : A) : wres O A := WOk [] a.
Definition wpanic {O A} : wres O A := WPanic.
Definition wbind {O A B} (w : wres O A) (f : A -> wres O B) : wres O B :=
  match w with
  | WOk bs a => match f a with WOk bs' b => WOk (bs ++ bs') b | WPanic => WPanic end
  | WPanic => WPanic
  end.
Declare Scope write_scope.
Delimit Scope write_scope with write.
Notation "x <- p ;; q" := (wbind p (fun x => q))
  (at level 81, p at next level, right associativity) : write_scope.
Notation "p ;; q" := (wbind p (fun _ => q))
  (at level 81, right associativity) : write_scope.

Definition put (n : nat) (v : Z) : W unit := WOk (be n v) tt.
Definition put_u8 := put 1.
Definition put_u16 := put 2.
Definition put_u32 := put 4.
Definition put_u64 := put 8.
Definition put_f32 := put 4.
Definition put_f64 := put 8.
(** put_i32 writes the two's complement pattern; [be] reduces modulo 2^32. *)
Definition put_i32 := put 4.
Definition put_i16 := put 2.
Definition put_i8 := put 1.
Definition put_slice (l : list Z) : W unit := WOk l tt.
(** BufMut::put_bytes(val, cnt) *)
Definition put_bytes (v : Z) (n : Z) : W unit := WOk (repeat v (Z.to_nat n)) tt.

(** [u16] addition / subtraction / multiplication under a mode *)
Definition arith {O} (m : mode) (r : Z) : wres O Z :=
  if (0 <=? r) && (r <? 65536) then wret r
  else match m with Checked => wpanic | Wrapping => wret (r mod 65536) end.
Definition add16 {O} (m : mode) (a b : Z) : wres O Z := arith m (a + b).
Definition mul16 {O} (m : mode) (a b : Z) : wres O Z := arith m (a * b).
(** the same, inside a parser *)
Definition parith {I} (m : mode) (r : Z) : parser I Z :=
  if (0 <=? r) && (r <? 65536) then pret r
  else match m with Checked => ppanic | Wrapping => pret (r mod 65536) end.

(** [iter().map(|x| x.serialize(buf)).sum::<u16>()] *)
Fixpoint wsum {A} (m : mode) (w : A -> W Z) (l : list A) (acc : Z) : W Z :=
  match l with
  | [] => wret acc
  | x :: t => wbind (w x) (fun n => wbind (add16 m acc n) (fun acc' => wsum m w t acc'))
  end.
Definition wmap_sum {A} (m : mode) (w : A -> W Z) (l : list A) : W Z := wsum m w l 0.

(** [let _ = iter().map(serialize).collect()] / for loops that ignore the count *)
Fixpoint witer {A} (w : A -> W unit) (l : list A) : W unit :=
  match l with
  | [] => wret tt
  | x :: t => wbind (w x) (fun _ => witer w t)
  end.

(** * Basic lemmas *)
Lemma zlen_nonneg {A} (l : list A) : 0 <= zlen l.
Proof. unfold zlen; lia. Qed.
Lemma zlen_app {A} (l1 l2 : list A) : zlen (l1 ++ l2) = zlen l1 + zlen l2.
Proof. unfold zlen; rewrite app_length; lia. Qed.
Lemma zlen_cons {A} (x : A) l : zlen (x :: l) = 1 + zlen l.
Proof. unfold zlen; simpl length; lia. Qed.
Lemma zlen_nil {A} : zlen (@nil A) = 0.
Proof. reflexivity. Qed.
Lemma zlen_map {A B} (f : A -> B) l : zlen (map f l) = zlen l.
Proof. unfold zlen; now rewrite map_length. Qed.
Lemma zlen_repeat {A} (x : A) n : zlen (repeat x n) = Z.of_nat n.
Proof. unfold zlen; now rewrite repeat_length. Qed.

Lemma be_length n v : length (be n v) = n.
Proof. induction n; simpl; congruence. Qed.
Lemma be_zlen n v : zlen (be n v) = Z.of_nat n.
Proof. unfold zlen; now rewrite be_length. Qed.

Lemma be_val_acc l : forall a, fold_left (fun acc b => acc * 256 + b) l a
                               = a * 256 ^ zlen l + be_val l.
Proof.
  unfold be_val. induction l as [|b l IH]; intros a.
  - simpl. unfold zlen; simpl. lia.
  - cbn [fold_left]. rewrite IH. rewrite (IH (0 * 256 + b)).
    rewrite zlen_cons, Z.pow_add_r by (try apply zlen_nonneg; lia).
    change (256^1) with 256. lia.
Qed.
Lemma be_val_cons b l : be_val (b :: l) = b * 256 ^ zlen l + be_val l.
Proof. unfold be_val at 1. simpl. rewrite be_val_acc. lia. Qed.

Lemma be_val_be_mod n v : be_val (be n v) = v mod 256 ^ Z.of_nat n.
Proof.
  induction n as [|n IH].
  - simpl. rewrite Z.mod_1_r. reflexivity.
  - cbn [be]. rewrite be_val_cons, IH, be_zlen.
    replace (Z.of_nat (S n)) with (Z.of_nat n + 1) by lia.
    rewrite Z.pow_add_r by lia. change (256^1) with 256.
    rewrite (Z.rem_mul_r v (256 ^ Z.of_nat n) 256) by (try apply Z.pow_nonzero; lia).
    lia.
Qed.
Lemma be_val_be n v : 0 <= v < 256 ^ Z.of_nat n -> be_val (be n v) = v.
Proof. intros H. rewrite be_val_be_mod. apply Z.mod_small; lia. Qed.

Lemma be_bytes n v : Forall (fun b => 0 <= b < 256) (be n v).
Proof.
  induction n as [|n IH]; simpl; constructor; auto.
  apply Z.mod_pos_bound; lia.
Qed.

Lemma be_val_bound l : Forall (fun b => 0 <= b < 256) l -> 0 <= be_val l < 256 ^ zlen l.
Proof.
  induction l as [|b l IH]; intros H.
  - unfold be_val, zlen; simpl; lia.
  - inversion H as [|? ? Hb Hl]; subst. specialize (IH Hl).
    rewrite be_val_cons, zlen_cons, Z.pow_add_r by (try apply zlen_nonneg; lia).
    change (256^1) with 256.
    assert (0 < 256 ^ zlen l) by (apply Z.pow_pos_nonneg; [lia|apply zlen_nonneg]).
    nia.
Qed.

Lemma be_mod n v : be n (v mod 256 ^ Z.of_nat n) = be n v.
Proof.
  enough (H : forall k, (n <= k)%nat -> be n (v mod 256 ^ Z.of_nat k) = be n v) by (apply H; lia).
  intros k. revert n. induction n as [|n IH]; intros Hk; [reflexivity|].
  cbn [be]. f_equal; [|apply IH; lia].
  replace (Z.of_nat k) with (Z.of_nat n + (1 + (Z.of_nat k - Z.of_nat n - 1))) by lia.
  rewrite !Z.pow_add_r by lia. change (256^1) with 256.
  set (p := 256 ^ Z.of_nat n). set (q := 256 ^ (Z.of_nat k - Z.of_nat n - 1)).
  assert (0 < p) by (apply Z.pow_pos_nonneg; lia).
  assert (0 < q) by (apply Z.pow_pos_nonneg; lia).
  rewrite (Z.rem_mul_r v p (256*q)) by lia.
  rewrite (Z.add_comm (v mod p)), (Z.mul_comm p), Z.div_add_l by lia.
  rewrite (Z.div_small (v mod p)) by (apply Z.mod_pos_bound; lia).
  rewrite Z.add_0_r, (Z.rem_mul_r _ 256 q) by lia.
  rewrite (Z.mul_comm 256), Z_mod_plus_full, Z.mod_mod by lia. reflexivity.
Qed.

Lemma skipn_app_exact {A} (l1 l2 : list A) n : length l1 = n -> skipn n (l1 ++ l2) = l2.
Proof. intros <-. rewrite skipn_app, skipn_all, Nat.sub_diag. reflexivity. Qed.
Lemma firstn_app_exact {A} (l1 l2 : list A) n : length l1 = n -> firstn n (l1 ++ l2) = l1.
Proof. intros <-. rewrite firstn_app, firstn_all, Nat.sub_diag. simpl. apply app_nil_r. Qed.

Lemma be_u_be n v rest : 0 <= v < 256 ^ Z.of_nat n -> be_u n (be n v ++ rest) = POk rest v.
Proof.
  intros H. unfold be_u. rewrite app_length, be_length.
  destruct (Nat.ltb_spec (n + length rest) n) as [Hl|_]; [lia|].
  rewrite skipn_app_exact, firstn_app_exact by apply be_length.
  now rewrite be_val_be.
Qed.
Lemma take_app bs rest : forall n, n = zlen bs -> take n (bs ++ rest) = POk rest bs.
Proof.
  intros n ->. unfold take. rewrite zlen_app.
  destruct (Z.ltb_spec (zlen bs + zlen rest) (zlen bs)) as [H|_].
  - pose proof (zlen_nonneg rest); lia.
  - unfold zlen. rewrite Nat2Z.id, skipn_app_exact, firstn_app_exact; reflexivity.
Qed.

(** * The round-trip judgement
    [RT w p x r L]: the writer [w] does not panic, returns [r] and appends
    exactly [L] bytes, and the parser [p] run on those bytes followed by anything
    returns [x] and leaves the rest. *)
Definition RT {R A} (w : W R) (p : bparser A) (x : A) (r : R) (L : Z) : Prop :=
  exists bs, w = WOk bs r /\ zlen bs = L /\ forall rest, p (bs ++ rest) = POk rest x.

Lemma RT_ret {R A} (r : R) (x : A) : RT (wret r) (pret x) x r 0.
Proof. exists []. repeat split. Qed.

Lemma RT_bind {R1 A1 R A} (w1 : W R1) (p1 : bparser A1) x1 r1 L1 (k : R1 -> W R) (f : A1 -> bparser A) x r L :
  RT w1 p1 x1 r1 L1 -> RT (k r1) (f x1) x r L -> RT (wbind w1 k) (pbind p1 f) x r (L1 + L).
Proof.
  intros (b1 & -> & Hl1 & Hp1) (b2 & Hw2 & Hl2 & Hp2).
  exists (b1 ++ b2). cbn [wbind]. rewrite Hw2. repeat split.
  - rewrite zlen_app; lia.
  - intros rest. unfold pbind. rewrite <- app_assoc, Hp1. apply Hp2.
Qed.

(** a writer step that emits nothing (u16 arithmetic) *)
Lemma RT_wpure {R1 R A} (w1 : W R1) (r1 : R1) (k : R1 -> W R) (p : bparser A) x r L :
  w1 = WOk [] r1 -> RT (k r1) p x r L -> RT (wbind w1 k) p x r L.
Proof.
  intros -> (b2 & Hw2 & Hl2 & Hp2). exists b2. cbn [wbind]. rewrite Hw2. repeat split; auto.
Qed.
(** a parser step that consumes nothing *)
Lemma RT_ppure {R A1 A} (w : W R) (p1 : bparser A1) x1 (f : A1 -> bparser A) x r L :
  (forall i, p1 i = POk i x1) -> RT w (f x1) x r L -> RT w (pbind p1 f) x r L.
Proof.
  intros H1 (b2 & Hw2 & Hl2 & Hp2). exists b2. repeat split; auto.
  intros rest. unfold pbind. rewrite H1. apply Hp2.
Qed.

Lemma RT_conv {R A} (w : W R) (p : bparser A) x x' r r' L L' :
  RT w p x r L -> x = x' -> r = r' -> L = L' -> RT w p x' r' L'.
Proof. intros H -> -> ->; exact H. Qed.

Lemma RT_put n v : 0 <= v < 256 ^ Z.of_nat n -> RT (put n v) (be_u n) v tt (Z.of_nat n).
Proof. intros H. exists (be n v). repeat split; [apply be_zlen | intros; now apply be_u_be]. Qed.
Lemma RT_u8 v : u8 v -> RT (put_u8 v) be_u8 v tt 1.
Proof. intros H. apply (RT_put 1). unfold u8 in H. simpl. lia. Qed.
Lemma RT_u16 v : u16 v -> RT (put_u16 v) be_u16 v tt 2.
Proof. intros H. apply (RT_put 2). unfold u16 in H. simpl. lia. Qed.
Lemma RT_u32 v : u32 v -> RT (put_u32 v) be_u32 v tt 4.
Proof. intros H. apply (RT_put 4). unfold u32 in H. simpl. lia. Qed.
Lemma RT_u64 v : u64 v -> RT (put_u64 v) be_u64 v tt 8.
Proof. intros H. apply (RT_put 8). unfold u64 in H. simpl. lia. Qed.
Lemma RT_f32 v : u32 v -> RT (put_f32 v) be_f32 v tt 4.
Proof. apply RT_u32. Qed.
Lemma RT_f64 v : u64 v -> RT (put_f64 v) be_f64 v tt 8.
Proof. apply RT_u64. Qed.

Lemma RT_signed (n : nat) v : let b := 8 * Z.of_nat n in (0 < n)%nat ->
  - 2 ^ (b - 1) <= v < 2 ^ (b - 1) ->
  RT (put n v) (pbind (be_u n) (fun v => pret (sext b v))) v tt (Z.of_nat n).
Proof.
  intros b Hn H. exists (be n v). repeat split; [apply be_zlen|].
  intros rest. unfold pbind.
  assert (Hp : 256 ^ Z.of_nat n = 2 ^ b).
  { unfold b. rewrite Z.pow_mul_r by lia. reflexivity. }
  assert (H2 : 2 ^ b = 2 * 2 ^ (b - 1)).
  { rewrite <- Z.pow_succ_r by lia. f_equal. lia. }
  assert (0 < 2 ^ (b-1)) by (apply Z.pow_pos_nonneg; lia).
  rewrite <- (be_mod n v), be_u_be by (apply Z.mod_pos_bound; lia).
  unfold pret. f_equal. rewrite Hp. unfold sext.
  destruct (Z.ltb_spec v 0) as [Hneg|Hpos].
  - replace (v mod 2 ^ b) with (v + 2 ^ b).
    + destruct (Z.ltb_spec (v + 2 ^ b) (2 ^ (b-1))); lia.
    + rewrite <- (Z_mod_plus_full v 1 (2^b)). rewrite Z.mod_small; lia.
  - rewrite Z.mod_small by lia. destruct (Z.ltb_spec v (2 ^ (b-1))); lia.
Qed.
Lemma RT_i32 v : i32 v -> RT (put_i32 v) be_i32 v tt 4.
Proof. intros H. apply (RT_signed 4); [lia | unfold i32 in H; simpl; lia]. Qed.
Lemma RT_i16 v : i16 v -> RT (put_i16 v) be_i16 v tt 2.
Proof. intros H. apply (RT_signed 2); [lia | unfold i16 in H; simpl; lia]. Qed.
Lemma RT_i8 v : i8 v -> RT (put_i8 v) be_i8 v tt 1.
Proof. intros H. apply (RT_signed 1); [lia | unfold i8 in H; simpl; lia]. Qed.

Lemma RT_slice bs n : n = zlen bs -> RT (put_slice bs) (take n) bs tt n.
Proof. intros ->. exists bs. repeat split. intros; now apply take_app. Qed.
Lemma RT_pad v n : 0 <= n -> RT (put_bytes v n) (take n) (repeat v (Z.to_nat n)) tt n.
Proof.
  intros H. exists (repeat v (Z.to_nat n)). repeat split.
  - rewrite zlen_repeat; lia.
  - intros. apply take_app. rewrite zlen_repeat; lia.
Qed.

Lemma add16_ok {O} m a b : 0 <= a + b < 65536 -> @add16 O m a b = WOk [] (a + b).
Proof.
  intros H. unfold add16, arith.
  destruct (Z.leb_spec 0 (a+b)); destruct (Z.ltb_spec (a+b) 65536); simpl; try lia. reflexivity.
Qed.
Lemma mul16_ok {O} m a b : 0 <= a * b < 65536 -> @mul16 O m a b = WOk [] (a * b).
Proof.
  intros H. unfold mul16, arith.
  destruct (Z.leb_spec 0 (a*b)); destruct (Z.ltb_spec (a*b) 65536); simpl; try lia. reflexivity.
Qed.
Lemma parith_ok {I} m r (i : I) : 0 <= r < 65536 -> parith m r i = POk i r.
Proof.
  intros H. unfold parith.
  destruct (Z.leb_spec 0 r); destruct (Z.ltb_spec r 65536); simpl; try lia. reflexivity.
Qed.

(** lists of records: [wmap_sum] against [count] *)
Fixpoint zsum (l : list Z) : Z := match l with [] => 0 | x :: t => x + zsum t end.
Lemma zsum_app l1 l2 : zsum (l1 ++ l2) = zsum l1 + zsum l2.
Proof. induction l1; simpl; lia. Qed.
Lemma zsum_const {A} (f : A -> Z) c l : (forall x, In x l -> f x = c) -> zsum (map f l) = c * zlen l.
Proof.
  induction l as [|x l IH]; intros H; cbn [map zsum].
  - unfold zlen; cbn [length]; lia.
  - rewrite zlen_cons, (H x) by (left; reflexivity). rewrite IH; [lia|]. intros; apply H; now right.
Qed.
Lemma zsum_nonneg l : Forall (fun x => 0 <= x) l -> 0 <= zsum l.
Proof. induction 1; simpl; lia. Qed.

Lemma RT_wsum {A} m (w : A -> W Z) (p : bparser A) (len : A -> Z) l :
  (forall x, In x l -> RT (w x) p x (len x) (len x)) ->
  forall acc, 0 <= acc -> acc + zsum (map len l) < 65536 ->
  RT (wsum m w l acc) (count_nat p (length l)) l (acc + zsum (map len l)) (zsum (map len l)).
Proof.
  induction l as [|x l IH]; intros Hx acc Ha Hs.
  - cbn [wsum count_nat length map zsum]. rewrite Z.add_0_r. apply RT_ret.
  - assert (Hn : forall y, In y l -> 0 <= len y).
    { intros y Hy. destruct (Hx y (or_intror Hy)) as (b & _ & Hb & _). rewrite <- Hb. apply zlen_nonneg. }
    assert (Hs0 : 0 <= zsum (map len l)).
    { apply zsum_nonneg. apply Forall_forall. intros z Hz. apply in_map_iff in Hz. destruct Hz as (y & <- & Hy). auto. }
    cbn [wsum count_nat length map zsum] in *.
    assert (Hx0 : 0 <= len x).
    { destruct (Hx x (or_introl eq_refl)) as (b & _ & Hb & _). rewrite <- Hb. apply zlen_nonneg. }
    eapply RT_bind; [apply Hx; now left|].
    eapply RT_wpure; [apply add16_ok; lia|].
    destruct (IH (fun y Hy => Hx y (or_intror Hy)) (acc + len x)) as (bs & Hw & Hl & Hp); [lia|lia|].
    exists bs. rewrite Hw. split; [f_equal; lia | split; [exact Hl |]].
    intros rest. unfold pbind, pret. rewrite Hp. reflexivity.
Qed.
Lemma RT_wmap_sum {A} m (w : A -> W Z) (p : bparser A) (len : A -> Z) l n :
  n = zlen l ->
  (forall x, In x l -> RT (w x) p x (len x) (len x)) ->
  zsum (map len l) < 65536 ->
  RT (wmap_sum m w l) (count p n) l (zsum (map len l)) (zsum (map len l)).
Proof.
  intros -> Hx Hs. unfold wmap_sum, count, zlen. rewrite Nat2Z.id.
  eapply RT_conv; [apply (RT_wsum m w p len l Hx 0); lia | reflexivity | lia | reflexivity].
Qed.
Lemma RT_witer {A} (w : A -> W unit) (p : bparser A) (len : A -> Z) l n :
  n = zlen l ->
  (forall x, In x l -> RT (w x) p x tt (len x)) ->
  RT (witer w l) (count p n) l tt (zsum (map len l)).
Proof.
  intros -> Hx. unfold count, zlen. rewrite Nat2Z.id.
  induction l as [|x l IH]; cbn [witer count_nat length map zsum].
  - apply RT_ret.
  - eapply RT_bind; [apply Hx; now left|].
    destruct IH as (bs & Hw & Hl & Hp); [intros; apply Hx; now right|].
    exists bs. rewrite Hw. repeat split; [exact Hl|].
    intros rest. unfold pbind, pret. rewrite Hp. reflexivity.
Qed.

(** * Properties of parsers on arbitrary input *)

(** [Ext p]: a successful parse leaves a suffix of its input, and is unaffected by
    bytes appended after the input. *)
Definition Ext {A} (p : bparser A) : Prop :=
  forall i r a, p i = POk r a -> (exists c, i = c ++ r) /\ forall x, p (i ++ x) = POk (r ++ x) a.
(** [SafeP p P]: on byte strings, never panics; a result satisfies [P] and the rest
    is again a byte string. [Safe p] only asks for the absence of panics. *)
Definition bytes (l : list Z) : Prop := Forall (fun b => 0 <= b < 256) l.
Definition SafeP {A} (p : bparser A) (P : A -> Prop) : Prop :=
  forall i, bytes i -> match p i with
                       | POk r a => bytes r /\ P a
                       | PErr _ => True
                       | PPanic => False
                       end.
Notation Safe p := (SafeP p (fun _ => True)).

Lemma Ext_ret {A} (a : A) : Ext (pret a).
Proof. intros i r b H. inversion H; subst. split; [exists []; reflexivity | reflexivity]. Qed.
Lemma Ext_fail {A} k : Ext (@pfail _ A k).
Proof. intros i r b H; discriminate. Qed.
Lemma Ext_panic {A} : Ext (@ppanic _ A).
Proof. intros i r b H; discriminate. Qed.
Lemma Ext_bind {A B} (p : bparser A) (f : A -> bparser B) :
  Ext p -> (forall a, Ext (f a)) -> Ext (pbind p f).
Proof.
  intros Hp Hf i r b H. unfold pbind in *.
  destruct (p i) as [r1 a| |] eqn:E; try discriminate.
  destruct (Hp _ _ _ E) as [[c1 ->] Hx1]. destruct (Hf _ _ _ _ H) as [[c2 ->] Hx2].
  split; [exists (c1 ++ c2); now rewrite app_assoc|].
  intros x. rewrite Hx1. apply Hx2.
Qed.
Lemma Ext_be_u n : Ext (be_u n).
Proof.
  intros i r a H. unfold be_u in *.
  destruct (Nat.ltb_spec (length i) n) as [|Hl]; [discriminate|]. inversion H; subst.
  split; [exists (firstn n i); symmetry; apply firstn_skipn|].
  intros x. rewrite app_length.
  destruct (Nat.ltb_spec (length i + length x) n) as [|_]; [lia|].
  rewrite skipn_app, firstn_app.
  replace (n - length i)%nat with 0%nat by lia. cbn [skipn firstn]. now rewrite app_nil_r.
Qed.
Lemma Ext_take n : Ext (take n).
Proof.
  intros i r a H. unfold take in *.
  destruct (Z.ltb_spec (zlen i) n) as [|Hl]; [discriminate|]. inversion H; subst.
  split; [exists (firstn (Z.to_nat n) i); symmetry; apply firstn_skipn|].
  intros x. rewrite zlen_app. pose proof (zlen_nonneg x).
  destruct (Z.ltb_spec (zlen i + zlen x) n) as [|_]; [lia|].
  rewrite skipn_app, firstn_app.
  replace (Z.to_nat n - length i)%nat with 0%nat by (unfold zlen in *; lia).
  cbn [skipn firstn]. now rewrite app_nil_r.
Qed.
Lemma Ext_parith m r : Ext (parith m r).
Proof. unfold parith. destruct (_ && _); [apply Ext_ret|]. destruct m; [apply Ext_panic|apply Ext_ret]. Qed.
Lemma Ext_count_nat {A} (p : bparser A) n : Ext p -> Ext (count_nat p n).
Proof.
  intros Hp. induction n; cbn [count_nat]; [apply Ext_ret|].
  apply Ext_bind; [exact Hp|]; intros a. apply Ext_bind; [exact IHn|]; intros l. apply Ext_ret.
Qed.
Lemma Ext_count {A} (p : bparser A) n : Ext p -> Ext (count p n).
Proof. apply Ext_count_nat. Qed.

Lemma Safe_weaken {A} (p : bparser A) (P Q : A -> Prop) : SafeP p P -> (forall a, P a -> Q a) -> SafeP p Q.
Proof. intros H HPQ i Hi. specialize (H i Hi). destruct (p i); intuition. Qed.
Lemma Safe_of {A} (p : bparser A) (P : A -> Prop) : SafeP p P -> Safe p.
Proof. intros H. eapply Safe_weaken; [exact H|auto]. Qed.
Lemma Safe_ret {A} (a : A) (P : A -> Prop) : P a -> SafeP (pret a) P.
Proof. intros H i Hi. split; assumption. Qed.
Lemma Safe_fail {A} k (P : A -> Prop) : SafeP (pfail k) P.
Proof. intros i Hi. exact I. Qed.
Lemma Safe_bind {A B} (p : bparser A) (f : A -> bparser B) P Q :
  SafeP p P -> (forall a, P a -> SafeP (f a) Q) -> SafeP (pbind p f) Q.
Proof.
  intros Hp Hf i Hi. unfold pbind. specialize (Hp i Hi).
  destruct (p i); [|exact I|contradiction]. destruct Hp as [Hr Ha]. apply Hf; assumption.
Qed.
Lemma bytes_firstn n l : bytes l -> bytes (firstn n l).
Proof. revert l; induction n; intros [|x l] H; cbn; try constructor; inversion H; subst; auto. now apply IHn. Qed.
Lemma bytes_skipn n l : bytes l -> bytes (skipn n l).
Proof. revert l; induction n; intros [|x l] H; cbn; auto. inversion H; subst. now apply IHn. Qed.
Lemma bytes_app l1 l2 : bytes (l1 ++ l2) <-> bytes l1 /\ bytes l2.
Proof. apply Forall_app. Qed.
Lemma Safe_be_u n : SafeP (be_u n) (fun v => 0 <= v < 256 ^ Z.of_nat n).
Proof.
  intros i Hi. unfold be_u. destruct (Nat.ltb_spec (length i) n) as [|Hl]; [exact I|].
  split; [now apply bytes_skipn|].
  pose proof (be_val_bound (firstn n i) (bytes_firstn n i Hi)) as Hb.
  unfold zlen in Hb. rewrite firstn_length_le in Hb by lia. exact Hb.
Qed.
Lemma Safe_be_u8 : SafeP be_u8 u8. Proof. exact (Safe_be_u 1). Qed.
Lemma Safe_be_u16 : SafeP be_u16 u16. Proof. exact (Safe_be_u 2). Qed.
Lemma Safe_be_u32 : SafeP be_u32 u32. Proof. exact (Safe_be_u 4). Qed.
Lemma Safe_be_u64 : SafeP be_u64 u64. Proof. exact (Safe_be_u 8). Qed.
Lemma Safe_be_f32 : SafeP be_f32 u32. Proof. exact (Safe_be_u 4). Qed.
Lemma Safe_be_f64 : SafeP be_f64 u64. Proof. exact (Safe_be_u 8). Qed.
Lemma Safe_be_i32 : SafeP be_i32 i32.
Proof.
  eapply Safe_bind; [exact Safe_be_u32|]. intros v Hv. apply Safe_ret.
  unfold u32, i32, sext in *. cbn. destruct (Z.ltb_spec v 2147483648); lia.
Qed.
Lemma Safe_be_i16 : SafeP be_i16 i16.
Proof.
  eapply Safe_bind; [exact Safe_be_u16|]. intros v Hv. apply Safe_ret.
  unfold u16, i16, sext in *. cbn. destruct (Z.ltb_spec v 32768); lia.
Qed.
Lemma Safe_be_i8 : SafeP be_i8 i8.
Proof.
  eapply Safe_bind; [exact Safe_be_u8|]. intros v Hv. apply Safe_ret.
  unfold u8, i8, sext in *. cbn. destruct (Z.ltb_spec v 128); lia.
Qed.
Lemma Safe_take n : 0 <= n -> SafeP (take n) (fun l => bytes l /\ zlen l = n).
Proof.
  intros Hn i Hi. unfold take. destruct (Z.ltb_spec (zlen i) n); [exact I|].
  split; [now apply bytes_skipn|]. split; [now apply bytes_firstn|].
  unfold zlen in *. rewrite firstn_length_le; lia.
Qed.
Lemma Safe_parith r : SafeP (parith Wrapping r) u16.
Proof.
  unfold parith, u16. destruct (Z.leb_spec 0 r); destruct (Z.ltb_spec r 65536); cbn;
    apply Safe_ret; try lia; apply Z.mod_pos_bound; lia.
Qed.
Lemma Safe_count_nat {A} (p : bparser A) P n : SafeP p P ->
  SafeP (count_nat p n) (fun l => Forall P l /\ length l = n).
Proof.
  intros Hp. induction n; cbn [count_nat]; [apply Safe_ret; auto|].
  eapply Safe_bind; [exact Hp|]; intros a Ha.
  eapply Safe_bind; [exact IHn|]; intros l [Hl Hlen]. apply Safe_ret. split; [constructor; auto|cbn; congruence].
Qed.
Lemma Safe_count {A} (p : bparser A) P n : SafeP p P ->
  SafeP (count p n) (fun l => Forall P l /\ zlen l = Z.of_nat (Z.to_nat n)).
Proof.
  intros Hp. eapply Safe_weaken; [apply Safe_count_nat, Hp|]. intros l [H1 H2]. split; auto.
  unfold zlen. congruence.
Qed.

Create HintDb ext discriminated.
Create HintDb safe discriminated.
Global Hint Resolve Ext_ret Ext_fail Ext_panic Ext_be_u Ext_take Ext_parith Ext_count : ext.
Global Hint Resolve Safe_fail Safe_be_u8 Safe_be_u16 Safe_be_u32 Safe_be_u64 Safe_be_f32 Safe_be_f64
  Safe_be_i32 Safe_be_i16 Safe_be_i8 Safe_parith : safe.

(** automation *)
Ltac ext_step :=
  match goal with
  | |- Ext (pbind _ _) => apply Ext_bind; [|intros]
  | |- Ext (count _ _) => apply Ext_count
  | |- Ext (pret _) => apply Ext_ret
  | |- Ext be_u8 => apply Ext_be_u
  | |- Ext be_u16 => apply Ext_be_u
  | |- Ext be_u32 => apply Ext_be_u
  | |- Ext be_u64 => apply Ext_be_u
  | |- Ext be_f32 => apply Ext_be_u
  | |- Ext be_f64 => apply Ext_be_u
  | |- Ext be_i32 => unfold be_i32
  | |- Ext be_i16 => unfold be_i16
  | |- Ext be_i8 => unfold be_i8
  | |- Ext (match ?x with _ => _ end) => destruct x
  | |- Ext _ => solve [auto with ext]
  end.
Ltac ext := repeat ext_step.
Ltac range0 := first [assumption | unfold u8, u16, u32, u64, i8, i16, i32 in *; lia].
Ltac safe_atom := first
  [ solve [eauto 2 with safe]
  | apply Safe_take; first [apply zlen_nonneg | range0]
  | eapply Safe_count; safe_atom ].
Ltac safe_step :=
  match goal with
  | |- SafeP (pret _) _ => apply Safe_ret; try exact I
  | |- SafeP (pbind _ _) _ => eapply Safe_bind; [safe_atom|intros; cbv beta in *]
  | |- SafeP (match ?x with _ => _ end) _ => destruct x eqn:?
  | |- SafeP _ (fun _ => True) => eapply Safe_of; safe_atom
  | |- SafeP _ _ => safe_atom
  end.
Ltac safe := repeat safe_step.

Create HintDb rt discriminated.
Global Hint Resolve RT_u8 RT_u16 RT_u32 RT_u64 RT_f32 RT_f64 RT_i32 RT_i16 RT_i8 RT_ret : rt.
(** discharge ranges of literals and projections of well-formedness hypotheses *)
Ltac range := first [assumption | unfold u8, u16, u32, u64, i8, i16, i32 in *; lia].
Global Hint Extern 4 (u8 _) => range : rt.
Global Hint Extern 4 (u16 _) => range : rt.
Global Hint Extern 4 (u32 _) => range : rt.
Global Hint Extern 4 (u64 _) => range : rt.
Global Hint Extern 4 (i32 _) => range : rt.
Global Hint Extern 4 (i16 _) => range : rt.
Global Hint Extern 4 (i8 _) => range : rt.

Ltac rt_step :=
  match goal with
  | |- RT (wbind (add16 _ _ _) _) _ _ _ _ => eapply RT_wpure; [apply add16_ok; lia|]
  | |- RT (wbind (mul16 _ _ _) _) _ _ _ _ => eapply RT_wpure; [apply mul16_ok; lia|]
  | |- RT _ (pbind (parith _ _) _) _ _ _ => eapply RT_ppure; [intros; apply parith_ok; lia|]
  | |- RT (wret _) (pret _) _ _ _ => apply RT_ret
  | |- RT (wbind _ _) (pbind _ _) _ _ _ => eapply RT_bind; [solve [eauto 6 with rt]|]; cbv beta
  end.
(** prove [RT w p x r L] by walking writer and parser in parallel *)
Ltac rt := eapply RT_conv; [repeat rt_step | try reflexivity | try reflexivity; try lia | try reflexivity; try lia].

Arguments be : simpl never.
Arguments be_u : simpl never.
Arguments pbind : simpl never.
Arguments pret : simpl never.
Arguments wbind : simpl never.
Arguments wret : simpl never.
Arguments put : simpl never.
Arguments put_slice : simpl never.
Arguments put_bytes : simpl never.
Arguments add16 : simpl never.
Arguments mul16 : simpl never.
Arguments take : simpl never.
Arguments count : simpl never.
Arguments parith : simpl never.
Arguments wmap_sum : simpl never.


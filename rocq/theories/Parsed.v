(** * What parsers return: every value in range, and every part of the form that serialization preserves *)
From Coq Require Import ZArith List Lia Bool.
From Verif Require Import Base Utf8 DisCommon DisLists DisHeader DisSimman DisLogistics DisWarfare DisEntity DisEmission DisRadio DisIff DisPdu DisPacket.
Import ListNotations. Open Scope Z_scope.

Definition Gives {A} (p : bparser A) (P : A -> Prop) : Prop := forall i r x, bytes i -> p i = POk r x -> bytes r /\ P x.
Lemma Gives_safe {A} (p : bparser A) P : SafeP p P -> Gives p P.
Proof. intros H i r x B E. specialize (H i B). rewrite E in H. exact H. Qed.
Lemma Gives_weaken {A} (p : bparser A) (P Q : A -> Prop) : Gives p P -> (forall a, P a -> Q a) -> Gives p Q.
Proof. intros H I i r x B E. destruct (H _ _ _ B E). split; auto. Qed.
Lemma Gives_and {A} (p : bparser A) (P Q : A -> Prop) : Gives p P -> Gives p Q -> Gives p (fun x => P x /\ Q x).
Proof. intros H I i r x B E. destruct (H _ _ _ B E), (I _ _ _ B E). auto. Qed.
Lemma Gives_ret {A} (a : A) (P : A -> Prop) : P a -> Gives (pret a) P.
Proof. intros H i r x B E. inversion E; subst. auto. Qed.
Lemma Gives_fail {A} k (P : A -> Prop) : Gives (pfail k) P.
Proof. intros i r x B E. discriminate. Qed.
Lemma Gives_panic {A} (P : A -> Prop) : Gives ppanic P.
Proof. intros i r x B E. discriminate. Qed.
Lemma Gives_bind {A B} (p : bparser A) (f : A -> bparser B) P Q : Gives p P -> (forall a, P a -> Gives (f a) Q) -> Gives (pbind p f) Q.
Proof. intros H I i r x Bi E. unfold pbind in E. destruct (p i) as [r1 a| |] eqn:E1; try discriminate. destruct (H _ _ _ Bi E1) as [B1 Pa]. exact (I a Pa _ _ _ B1 E). Qed.
Lemma Gives_count {A} (p : bparser A) P n : Gives p P -> Gives (count p n) (fun l => Forall P l /\ zlen l = Z.of_nat (Z.to_nat n)).
Proof.
  intros H. unfold count. assert (G : forall k, Gives (count_nat p k) (fun l => Forall P l /\ length l = k)).
  { induction k; cbn [count_nat]; [apply Gives_ret; auto|]. eapply Gives_bind; [exact H|]. intros a Ha. eapply Gives_bind; [exact IHk|]. intros l [Hl Hn]. apply Gives_ret. split; [constructor; auto|cbn; congruence]. }
  eapply Gives_weaken; [apply G|]. intros l [H1 H2]. split; [exact H1|]. unfold zlen. congruence.
Qed.
Lemma Gives_parith m r : Gives (parith m r) (fun v => u16 v /\ (0 <= r < 65536 -> v = r)).
Proof.
  unfold parith, u16. destruct (Z.leb_spec 0 r); destruct (Z.ltb_spec r 65536); cbn [andb]; try (apply Gives_ret; lia);
  (destruct m; [apply Gives_panic|]; apply Gives_ret; split; [apply Z.mod_pos_bound; lia|lia]).
Qed.
Lemma Gives_take n : Gives (take n) (fun l => bytes l /\ zlen l = Z.max 0 n).
Proof.
  intros i r x B E. unfold take in E. destruct (Z.ltb_spec (zlen i) n); [discriminate|]. inversion E; subst.
  split; [apply bytes_skipn; assumption|]. split; [apply bytes_firstn; assumption|]. unfold zlen in *. rewrite firstn_length. lia.
Qed.
Lemma Gives_pmap {A B} (f : A -> B) (p : bparser A) P (Q : B -> Prop) : Gives p P -> (forall x, P x -> Q (f x)) -> Gives (pmap f p) Q.
Proof. intros. unfold pmap. eapply Gives_bind; [eassumption|]. intros. apply Gives_ret. auto. Qed.
Lemma Gives_pext {A} (p q : bparser A) P : (forall i, p i = q i) -> Gives q P -> Gives p P.
Proof. intros H G i r x B E. rewrite H in E. exact (G _ _ _ B E). Qed.
Lemma Gives_padded d n : Gives (p_padded d n) (fun pl => 0 <= d -> 0 < n -> pl = MkPadded d (pad_to d n) (d + pad_to d n)).
Proof. intros i r x B E. unfold p_padded in E. destruct (length_padded_to_num d n) eqn:L; [|discriminate]. inversion E; subst. split; [assumption|]. intros. rewrite length_padded_val in L by assumption. congruence. Qed.
Lemma Gives_peek {A} (p : bparser A) P : Gives p P -> Gives (peek p) P.
Proof. intros H i r x B E. unfold peek in E. destruct (p i) eqn:E1; try discriminate. inversion E; subst. destruct (H _ _ _ B E1). auto. Qed.
Lemma Gives_plift {A} (w : W A) (P : A -> Prop) : (forall bs a, w = WOk bs a -> P a) -> Gives (plift w) P.
Proof. intros H i r x B E. unfold plift in E. destruct w; [|discriminate]. inversion E; subst. split; [assumption|]. eapply H; reflexivity. Qed.

Create HintDb gives discriminated.
Global Hint Resolve Gives_fail Gives_panic Gives_parith Gives_take Gives_padded : gives.
Global Hint Extern 1 (Gives be_u8 _) => apply Gives_safe, Safe_be_u8 : gives.
Global Hint Extern 1 (Gives be_u16 _) => apply Gives_safe, Safe_be_u16 : gives.
Global Hint Extern 1 (Gives be_u32 _) => apply Gives_safe, Safe_be_u32 : gives.
Global Hint Extern 1 (Gives be_u64 _) => apply Gives_safe, Safe_be_u64 : gives.
Global Hint Extern 1 (Gives be_f32 _) => apply Gives_safe, Safe_be_f32 : gives.
Global Hint Extern 1 (Gives be_f64 _) => apply Gives_safe, Safe_be_f64 : gives.
Global Hint Extern 1 (Gives be_i32 _) => apply Gives_safe, Safe_be_i32 : gives.
Global Hint Extern 1 (Gives be_i16 _) => apply Gives_safe, Safe_be_i16 : gives.
Global Hint Extern 1 (Gives be_i8 _) => apply Gives_safe, Safe_be_i8 : gives.
Ltac unpack := repeat match goal with H : _ /\ _ |- _ => destruct H end.
Ltac gv_atom := first
  [ solve [eauto 2 with gives]
  | apply Gives_take
  | eapply Gives_count; gv_atom ].
Ltac gv_step :=
  match goal with
  | |- Gives (pret _) _ => apply Gives_ret
  | |- Gives (pbind _ _) _ => eapply Gives_bind; [gv_atom|intros; cbv beta in *; unpack]
  | |- Gives (if ?x then _ else _) _ => destruct x eqn:?
  | |- Gives (let _ := _ in _) _ => cbv zeta
  | |- Gives _ _ => gv_atom
  end.
Ltac size_lia := unfold u8, u16, u32, u64, i8, i16, i32 in *; rewrite ?Z2Nat.id in * by lia; lia.
Ltac gv_leaf := first [assumption | exact I | reflexivity | size_lia].
Ltac gv := repeat gv_step; unpack.
Ltac parts := first [gv_leaf | split; parts].
Ltac gvs wf := gv; unfold wf; cbn; parts.

Lemma G_simulation_address : Gives p_simulation_address wf_SimulationAddress. Proof. unfold p_simulation_address. gvs wf_SimulationAddress. Qed.
Global Hint Resolve G_simulation_address : gives.

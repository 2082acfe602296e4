(** * Lemmas for C28: PDUs written in fewer bits than reading them takes *)
From Coq Require Import ZArith List Lia Bool.
From Verif Require Import Base CdisBase CdisRecords CdisBodies1 CdisBodies2 CdisIff CdisPdu DisRadio SpecCdis SpecCdisPdu L_CdisBits L_CdisPdu.
Import ListNotations. Open Scope Z_scope.

(** reading a value takes at least so many bits *)
Definition BMin {A} (p : bitparser A) (f : A -> Z) : Prop := forall i r a, p i = POk r a -> zlen r + f a <= zlen i.
Lemma bbind_ok {A B} (p : bitparser A) (f : A -> bitparser B) i r b : pbind p f i = POk r b -> exists r1 a, p i = POk r1 a /\ f a r1 = POk r b.
Proof. unfold pbind. destruct (p i) as [r1 a|k|]; try discriminate. eauto. Qed.
Lemma bret_ok {A} (x a : A) i r : pret (I := list bool) x i = POk r a -> r = i /\ a = x.
Proof. intros E. injection E as <- <-. auto. Qed.
Lemma BMin_take n : 0 <= n -> BMin (btake n) (fun _ => n).
Proof.
  intros Hn i r a. unfold btake. destruct (Z.ltb_spec (zlen i) n); [discriminate|]. intros E. injection E as <- _.
  rewrite zlen_skipn by lia. lia.
Qed.
Lemma BMin_bool : BMin bbool (fun _ => 1).
Proof. intros i r a H. unfold bbool in H. apply bbind_ok in H as (r1 & v & H1 & H2). apply bret_ok in H2 as [-> _]. exact (BMin_take 1 ltac:(lia) _ _ _ H1). Qed.
Lemma BMin_take_s n : 1 <= n -> BMin (btake_s n) (fun _ => n).
Proof.
  intros Hn i r a H. unfold btake_s in H. apply bbind_ok in H as (r1 & v & H1 & H). apply bbind_ok in H as (r2 & v2 & H2 & H). apply bret_ok in H as [-> _].
  apply (BMin_take 1 ltac:(lia)) in H1. apply (BMin_take (n - 1) ltac:(lia)) in H2. lia.
Qed.
Lemma btake_ub n i r v : 0 <= n -> btake n i = POk r v -> 0 <= v < 2 ^ n.
Proof. intros Hn E. pose proof (BSafe_take n Hn i) as S. rewrite E in S. exact S. Qed.
Lemma BMin_uvint flag cls bits : 1 <= flag -> (forall c, 1 <= bits c) -> (forall c v, 0 <= c < 2 ^ flag -> 0 <= v < 2 ^ bits c -> bits (cls v) <= bits c) ->
  BMin (p_uvint flag bits) (len_vint flag cls bits).
Proof.
  intros Hf Hb Hc i r v H. unfold p_uvint in H. apply bbind_ok in H as (r1 & c & H1 & H2).
  pose proof (btake_ub flag _ _ _ ltac:(lia) H1) as Rc. pose proof (btake_ub (bits c) _ _ _ ltac:(specialize (Hb c); lia) H2) as Rv.
  apply (BMin_take flag ltac:(lia)) in H1. apply (BMin_take (bits c) ltac:(specialize (Hb c); lia)) in H2. specialize (Hc c v Rc Rv). unfold len_vint. lia.
Qed.
Lemma BMin_uvint8 : BMin p_uvint8 len_uvint8.
Proof.
  apply BMin_uvint; [lia|intros c; unfold uvint8_bits; destruct (c =? 0); lia|]. intros c v Hc Hv. unfold uvint8_class, uvint8_bits in *. revert Hv.
  destruct (c =? 0); intros Hv; [change (2 ^ 4) with 16 in Hv|]; decide_z; cbn; lia.
Qed.
Lemma BMin_uvint16 : BMin p_uvint16 len_uvint16.
Proof.
  apply BMin_uvint; [lia|intros c; unfold uvint16_bits; destruct (c =? 0), (c =? 1), (c =? 2); lia|]. intros c v Hc Hv. unfold uvint16_class, uvint16_bits in *. revert Hv.
  destruct (c =? 0); [intros Hv; change (2 ^ 8) with 256 in Hv; decide_z; cbn; lia|]. destruct (c =? 1); [intros Hv; change (2 ^ 11) with 2048 in Hv; decide_z; cbn; lia|].
  destruct (c =? 2); [intros Hv; change (2 ^ 14) with 16384 in Hv|intros Hv]; decide_z; cbn; lia.
Qed.
(** a signed one: the value of a tag below 3 is in that tag's range, and the largest size is never too small *)
Lemma BMin_svint cls bits mn : (forall c, 2 <= bits c) ->
  (forall c v s, 0 <= c < 4 -> 0 <= v < 2 ^ (bits c - 1) -> bits (cls ((if s : bool then mn c else 0) + v)) <= bits c) -> BMin (p_svint bits mn) (len_vint 2 cls bits).
Proof.
  intros Hb Hc i r a H. unfold p_svint in H. apply bbind_ok in H as (r1 & c & H1 & H). apply bbind_ok in H as (r2 & s & H2 & H). apply bbind_ok in H as (r3 & v & H3 & H).
  apply bret_ok in H as [-> ->]. specialize (Hb c). pose proof (btake_ub 2 _ _ _ ltac:(lia) H1) as Rc. pose proof (btake_ub (bits c - 1) _ _ _ ltac:(lia) H3) as Rv. change (2 ^ 2) with 4 in Rc.
  apply (BMin_take 2 ltac:(lia)) in H1. apply BMin_bool in H2. apply (BMin_take (bits c - 1) ltac:(lia)) in H3. specialize (Hc c v s Rc Rv). unfold len_vint. lia.
Qed.
Ltac sv_min C B M := intros c v s Hc Hv; unfold C, B, M in *;
  assert (Q : c = 0 \/ c = 1 \/ c = 2 \/ c = 3) by lia; destruct Q as [-> | [-> | [-> | ->]]]; cbn [Z.eqb] in *; cbn -[Z.pow] in *; pow_hyps; destruct s;
  repeat match goal with |- context [in_rng ?a ?b ?x] => destruct (in_rng_spec a b x) end; cbn; lia.
Lemma BMin_svint16 : BMin p_svint16 len_svint16.
Proof. apply BMin_svint; [intros c; unfold svint16_bits; destruct (c =? 0), (c =? 1), (c =? 2); lia|]. sv_min svint16_class svint16_bits svint16_min. Qed.
Lemma BMin_svint24 : BMin p_svint24 len_svint24.
Proof. apply BMin_svint; [intros c; unfold svint24_bits; destruct (c =? 0), (c =? 1), (c =? 2); lia|]. sv_min svint24_class svint24_bits svint24_min. Qed.
Lemma BMin_when {A} (p : bitparser A) f fp mask : BMin p f -> BMin (p_when fp mask p) (opt_len f).
Proof.
  intros Hp i r a H. unfold p_when in H. destruct (field_present fp mask).
  - apply bbind_ok in H as (r1 & x & H1 & H2). apply bret_ok in H2 as [-> ->]. exact (Hp _ _ _ H1).
  - apply bret_ok in H as [-> ->]. cbn. lia.
Qed.
Lemma BMin_if {A} (p : bitparser A) f b : BMin p f -> BMin (p_if b p) (opt_len f).
Proof.
  intros Hp i r a H. unfold p_if in H. destruct b.
  - apply bbind_ok in H as (r1 & x & H1 & H2). apply bret_ok in H2 as [-> ->]. exact (Hp _ _ _ H1).
  - apply bret_ok in H as [-> ->]. cbn. lia.
Qed.
Lemma BMin_count {A} (p : bitparser A) f n : BMin p f -> BMin (count p n) (fun l => zsum (map f l)).
Proof.
  intros Hp. unfold count. induction (Z.to_nat n) as [|k IH]; cbn [count_nat]; intros i r l H.
  - apply bret_ok in H as [-> ->]. cbn. lia.
  - apply bbind_ok in H as (r1 & x & H1 & H). apply bbind_ok in H as (r2 & t & H2 & H). apply bret_ok in H as [-> ->]. cbn [map zsum].
    apply Hp in H1. apply IH in H2. cbn in *. lia.
Qed.
(** take a reader apart and add up *)
Ltac min_atom := first
  [ exact BMin_bool | apply BMin_take; lia | apply BMin_take_s; lia | exact BMin_uvint8 | exact BMin_uvint16 | exact BMin_svint16 | exact BMin_svint24
  | solve [eauto 2 with bmin] | eapply BMin_when; min_atom | eapply BMin_if; min_atom | eapply BMin_count; min_atom ].
Ltac min_step := match goal with
  | H : pbind _ _ _ = POk _ _ |- _ =>
      let r := fresh "r" in let a := fresh "a" in let H1 := fresh "H" in let M := fresh "M" in
      apply bbind_ok in H as (r & a & H1 & H);
      match type of H1 with ?p ?i = POk _ _ => let M0 := fresh in eassert (M0 : BMin p _) by min_atom; pose proof (M0 _ _ _ H1) as M; clear M0; cbv beta in M end
  end.
Ltac min_end := match goal with H : pret _ _ = POk _ _ |- _ => apply bret_ok in H as [-> ->] end.
Lemma BMin_ceid : BMin p_ceid len_ceid.
Proof. intros i r a H. unfold p_ceid in H. repeat min_step. min_end. unfold len_ceid. cbn -[Z.add]. lia. Qed.
Lemma BMin_cet : BMin p_cet len_cet.
Proof. intros i r a H. unfold p_cet in H. repeat min_step. min_end. unfold len_cet. cbn -[Z.add]. lia. Qed.
Lemma BMin_cwc : BMin p_cwc len_cwc.
Proof. intros i r a H. unfold p_cwc in H. repeat min_step. min_end. unfold len_cwc. cbn -[Z.add]. lia. Qed.
Lemma BMin_cecv : BMin p_cecv len_cecv.
Proof. intros i r a H. unfold p_cecv in H. repeat min_step. min_end. unfold len_cecv. cbn -[Z.add]. lia. Qed.
Lemma BMin_ctf : BMin p_ctf (fun _ => 28).
Proof. intros i r a H. unfold p_ctf in H. repeat min_step. min_end. lia. Qed.
Lemma BMin_ctb : BMin p_ctb (fun _ => 21).
Proof. intros i r a H. unfold p_ctb in H. repeat min_step. min_end. lia. Qed.
Lemma BMin_cmod : BMin p_cmod (fun _ => 16).
Proof. intros i r a H. unfold p_cmod in H. repeat min_step. min_end. lia. Qed.
Lemma BMin_cbap : BMin p_cbap len_cbap.
Proof. intros i r a H. unfold p_cbap in H. repeat min_step. min_end. unfold len_cbap. lia. Qed.
Lemma BMin_units2 : BMin p_units2 (fun _ => 2).
Proof. intros i r a H. unfold p_units2 in H. repeat min_step. min_end. lia. Qed.
Lemma BMin_cheader : BMin p_cheader len_cheader.
Proof. intros i r a H. unfold p_cheader in H. repeat min_step. min_end. unfold len_cheader. cbn -[Z.add]. lia. Qed.
Lemma BMin_octets8 fp mask : BMin (p_octets8 fp mask) octets8_bits.
Proof.
  intros i r l H. unfold p_octets8 in H. apply bbind_ok in H as (r1 & n & H1 & H). unfold p_when in H1. destruct (field_present fp mask).
  - apply bbind_ok in H1 as (r2 & v & H2 & H1). apply bret_ok in H1 as [-> ->]. apply (BMin_take 8 ltac:(lia)) in H2.
    apply (BMin_count _ _ _ (BMin_take 8 ltac:(lia))) in H. rewrite (zsum_const _ 8) in H by reflexivity. unfold octets8_bits. pose proof (zlen_nonneg l). destruct (nonempty l); lia.
  - apply bret_ok in H1 as [-> ->]. apply bret_ok in H as [-> ->]. cbn. lia.
Qed.
Lemma BMin_ctj f : BMin (p_ctj f) (fun t => len_ctj t - 2).
Proof.
  intros i r t H. unfold p_ctj in H. do 2 min_step. unfold len_ctj. destruct f; repeat min_step; min_end; cbn -[Z.add]; lia.
Qed.
Definition jam_len (o : option Z) : Z := opt_len len_uvint8 o.
Lemma BMin_jamming f : BMin (p_jamming f) (fun j => jam_len (fst (fst (fst j))) + jam_len (snd (fst (fst j))) + jam_len (snd (fst j)) + jam_len (snd j)).
Proof. intros i r t H. unfold p_jamming in H. destruct f; repeat min_step; min_end; cbn -[Z.add]; unfold jam_len; cbn -[Z.add]; lia. Qed.
Global Hint Resolve BMin_ceid BMin_cet BMin_cwc BMin_cecv BMin_ctf BMin_ctb BMin_cmod BMin_cbap BMin_units2 BMin_cheader BMin_octets8 BMin_ctj BMin_jamming : bmin.
Lemma zsum_sub {A} (f : A -> Z) k l : zsum (map (fun a => f a - k) l) = zsum (map f l) - k * zlen l.
Proof. induction l as [|a l IH]; cbn [map zsum]; [unfold zlen; cbn; lia|]. rewrite IH, zlen_cons. lia. Qed.
Lemma BMin_ceb : BMin p_ceb (fun b => bits_ceb b - 2 * zlen (ceb_tracks b)).
Proof.
  intros i r b H. unfold p_ceb in H. repeat min_step. min_end. rewrite zsum_sub in *. unfold bits_ceb, jam_len in *. cbn -[Z.add Z.mul p_ctj] in *.
  change (fun a => len_uvint8 a) with len_uvint8. lia.
Qed.
Global Hint Resolve BMin_ceb : bmin.
Definition tracks_of (s : CEmitterSystem) : Z := zsum (map (fun b => zlen (ceb_tracks b)) (cesy_beams s)).
Lemma zsum_ext {A} (f g : A -> Z) l : (forall a, f a = g a) -> zsum (map f l) = zsum (map g l).
Proof. intros H. f_equal. now apply map_ext. Qed.
Lemma zsum_lin {A} (f g : A -> Z) k l : zsum (map (fun a => f a - k * g a) l) = zsum (map f l) - k * zsum (map g l).
Proof. induction l as [|a l IH]; cbn [map zsum]; lia. Qed.
Lemma BMin_cesy : BMin p_cesy (fun s => bits_cesy s + len_uvint8 (cesy_number s) - 2 * tracks_of s).
Proof.
  intros i r s H. unfold p_cesy in H. do 3 min_step. unfold bits_cesy, tracks_of, cesy_details. match type of H with pbind (if ?c then _ else _) _ _ = _ => destruct c end.
  - apply bbind_ok in H as (r3 & nf & Hn & H). repeat match goal with K : pbind _ _ _ = POk _ (_, _) |- _ => fail 1 | _ => idtac end.
    apply bbind_ok in Hn as (r4 & v1 & K1 & Hn). apply bbind_ok in Hn as (r5 & v2 & K2 & Hn). apply bret_ok in Hn as [-> ->].
    apply (BMin_take 16 ltac:(lia)) in K1. apply (BMin_take 8 ltac:(lia)) in K2. repeat min_step. min_end.
    rewrite zsum_lin in *. cbn -[Z.add Z.mul] in *. change (fun a => len_uvint8 a) with len_uvint8. lia.
  - apply bbind_ok in H as (r3 & nf & Hn & H). apply bret_ok in Hn as [-> ->]. repeat min_step. min_end.
    rewrite zsum_lin in *. cbn -[Z.add Z.mul] in *. lia.
Qed.

(** ** What a round trip would need *)
Lemma reads_back_bits {A} w (p : bitparser A) x n : 0 <= n -> reads_back w p x n -> exists bs, w = WOk bs tt /\ zlen bs = n /\ p bs = POk [] x.
Proof.
  intros Hn H. set (buf := repeat false (Z.to_nat n)). assert (Hb : zlen buf = n) by (unfold buf, zlen; rewrite repeat_length; lia).
  destruct (H buf 0 ltac:(lia) ltac:(lia)) as (b1 & E1 & _ & P1). unfold run_at in E1. destruct w as [bs []|]; [|discriminate].
  unfold splice in E1. destruct (Z.leb_spec 0 0); [|lia]. cbn [andb] in E1. destruct (Z.leb_spec (0 + zlen bs) (zlen buf)); [|discriminate].
  injection E1 as <- En. assert (El : zlen bs = n) by lia. exists bs. split; [reflexivity|]. split; [exact El|].
  assert (Es : skipn (Z.to_nat (0 + zlen bs)) buf = []) by (apply skipn_all2; unfold zlen in *; lia). change (0 + zlen bs) with (zlen bs) in Es. rewrite Es, app_nil_r in P1.
 unfold from in P1. change (skipn (Z.to_nat 0) bs) with bs in P1.
  rewrite P1. f_equal. apply skipn_all2. unfold zlen in *. lia.
Qed.
(** one field: what the reader gets first is what was written first *)
Lemma peel {A B} (w1 : BW) (p1 : bitparser A) x1 L1 (k : unit -> BW) (f : A -> bitparser B) bs r b : BRT w1 p1 x1 L1 ->
  wbind w1 k = WOk bs tt -> pbind p1 f bs = POk r b -> exists bs2, k tt = WOk bs2 tt /\ f x1 bs2 = POk r b.
Proof.
  intros (b1 & -> & Hl & Hp) Hw Hr. unfold wbind in Hw. destruct (k tt) as [bs2 []|]; [|discriminate]. injection Hw as <-. exists bs2. split; [reflexivity|].
  unfold pbind in Hr. now rewrite Hp in Hr.
Qed.
Lemma cpdu_reads h b i r : p_cpdu i = POk r (MkCPdu h b) -> exists r1, p_cheader i = POk r1 h /\ p_cbody (ch_type h) r1 = POk r b.
Proof.
  intros H. unfold p_cpdu in H. apply bbind_ok in H as (r1 & h1 & H1 & H). apply bbind_ok in H as (r2 & b1 & H2 & H). apply bret_ok in H as [-> E].
  injection E as -> ->. eauto.
Qed.
Lemma cbody_reads {A} (p : bitparser A) (C : A -> CBody) r b i : (x <- p;; pret (C x))%parse i = POk r b -> exists x, b = C x /\ p i = POk r x.
Proof. intros H. apply bbind_ok in H as (r1 & x & H1 & H). apply bret_ok in H as [-> ->]. eauto. Qed.
Lemma transmitter_reads ty i r x : p_cbody ty i = POk r (CBTransmitter x) -> p_ctransmitter i = POk r x.
Proof.
  unfold p_cbody. intros H. repeat (match type of H with (if ?c then _ else _) _ = _ => destruct c; [apply cbody_reads in H as (y & E & H); first [discriminate|injection E as <-; exact H]|] end).
  discriminate H.
Qed.
Lemma emission_reads ty i r x : p_cbody ty i = POk r (CBEmission x) -> p_cemission i = POk r x.
Proof.
  unfold p_cbody. intros H. repeat (match type of H with (if ?c then _ else _) _ = _ => destruct c; [apply cbody_reads in H as (y & E & H); first [discriminate|injection E as <-; exact H]|] end).
  discriminate H.
Qed.
Lemma reads_back_nonneg {A} w (p : bitparser A) x n : reads_back w p x n -> 0 <= n.
Proof.
  intros H. destruct (Z.ltb_spec n 0) as [Hn|Hn]; [exfalso|exact Hn]. destruct (H [] 0 ltac:(lia) ltac:(change (zlen (@nil bool)) with 0; lia)) as (b & E & _).
  unfold run_at in E. destruct w as [bs []|]; [|discriminate]. destruct (splice [] 0 bs); [|discriminate]. injection E as _ E. pose proof (zlen_nonneg bs). lia.
Qed.
Lemma when_flag {A} fp mask (p : bitparser A) i r o : p_when fp mask p i = POk r o -> is_some o = field_present fp mask.
Proof.
  unfold p_when. destruct (field_present fp mask); intros H; [apply bbind_ok in H as (r1 & a & _ & H)|]; apply bret_ok in H as [_ ->]; reflexivity.
Qed.
Lemma BMin_cvtp : BMin p_cvtp (fun _ => 0).
Proof.
  intros i r a H. unfold p_cvtp in H. apply bbind_ok in H as (r1 & t & H1 & H). apply bbind_ok in H as (r2 & l & H2 & H). apply bbind_ok in H as (r3 & f & H3 & H).
  apply bret_ok in H as [-> _]. apply (BMin_take 32 ltac:(lia)) in H1. apply (BMin_take 16 ltac:(lia)) in H2. apply (BMin_count _ _ _ (BMin_take 8 ltac:(lia))) in H3.
  rewrite (zsum_const (fun _ => 8) 8) in H3 by reflexivity. pose proof (zlen_nonneg f). lia.
Qed.
Lemma BMin_vtps (b : bool) n : BMin (if b then count p_cvtp n else pret []) (fun _ => 0).
Proof.
  intros i r l H. destruct b; [|apply bret_ok in H as [-> ->]; lia]. apply (BMin_count _ _ _ BMin_cvtp) in H. rewrite (zsum_const _ 0) in H by reflexivity. lia.
Qed.
Global Hint Resolve BMin_vtps : bmin.
Lemma opt_len_flag {A} (o : option A) k b : is_some o = b -> opt_len (fun _ => k) o = if b then k else 0.
Proof. intros <-. destruct o; reflexivity. Qed.
(** without variable parameters: everything that was written, and the number *)
Lemma transmitter_min i r x : p_ctransmitter i = POk r x -> CTransmitter_vtps x = [] -> zlen r + bits_ctransmitter x + 5 <= zlen i.
Proof.
  intros H Hv. unfold p_ctransmitter in H. repeat min_step. min_end. cbn [CTransmitter_vtps] in Hv. subst.
  repeat match goal with K : p_when _ _ _ _ = POk _ _ |- _ => apply when_flag in K end.
  unfold bits_ctransmitter, len_cbap in *. cbn -[Z.add Z.mul opt_len octets8_bits] in *.
  repeat match goal with K : is_some ?o = _, M : context [opt_len (fun _ => ?k) ?o] |- _ => rewrite (opt_len_flag o k _ K) in * end.
  repeat match goal with K : is_some ?o = _ |- context [opt_len (fun _ => ?k) ?o] => rewrite (opt_len_flag o k _ K) end.
  assert (forall v, 5 <= len_uvint8 v) by (intros v; unfold len_uvint8, len_vint, uvint8_bits; destruct (uvint8_class v =? 0); lia).
  match goal with M : context [len_uvint8 ?a] |- _ => idtac end. 
  repeat match goal with M : context [len_uvint8 ?a] |- _ => lazymatch goal with _ : 5 <= len_uvint8 a |- _ => fail | _ => pose proof (H a) end end.
  lia.
Qed.

(** ** Transmitter *)
Lemma cbody_len_pos h : 0 <= len_cheader h.
Proof. unfold len_cheader, len_uvint8, len_vint, uvint8_bits. destruct (_ =? _); lia. Qed.
Lemma BMin_header : BMin p_cheader len_cheader.
Proof. intros i r h H. unfold p_cheader in H. repeat min_step. min_end. unfold len_cheader. cbn [ch_exercise]. lia. Qed.
Lemma bits_cpdu_eq h b : bits_cpdu (MkCPdu h b) = len_cheader h + bits_cbody b.
Proof. reflexivity. Qed.
Lemma never_short m h b k : wfits_CPdu (MkCPdu h b) -> 0 < k -> (forall i r, p_cbody (ch_type h) i = POk r b -> zlen r + bits_cbody b + k <= zlen i) ->
  forall n, ~ reads_back (w_cpdu m (MkCPdu h b)) p_cpdu (MkCPdu h b) n.
Proof.
  intros F Hk Hm n R. pose proof (reads_back_nonneg _ _ _ _ R) as Hn. apply reads_back_bits in R as (bs & W & El & P); [|exact Hn].
  destruct (BLen_cpdu m _ F) as (bs' & W' & El'). rewrite W in W'. injection W' as <-. rewrite bits_cpdu_eq in El'.
  apply cpdu_reads in P as (r1 & P1 & P2). apply BMin_header in P1. apply Hm in P2. clear - P1 P2 El' Hk. cbn [zlen List.length Z.of_nat] in P2. pose proof (zlen_nonneg (@nil bool)). lia.
Qed.
(*@C28
   It fails for every Transmitter PDU without variable transmitter parameters: whatever its other fields are, as long as each fits, and whatever header is in
   front of it, there is no number of bits from which it would be read back: reading it takes at least five bits more than are written. *)
Lemma cdis_transmitter_never_pf : forall m h x, wfits_CPdu (MkCPdu h (CBTransmitter x)) -> CTransmitter_vtps x = [] ->
  forall n, ~ reads_back (w_cpdu m (MkCPdu h (CBTransmitter x))) p_cpdu (MkCPdu h (CBTransmitter x)) n.
Proof.
  intros m h x F V. apply (never_short m h (CBTransmitter x) 5 F ltac:(reflexivity)). intros i r H. apply transmitter_reads in H. exact (transmitter_min _ _ _ H V).
Qed.
(*@ex*)
Example cdis_transmitter_never_example : wfits_CPdu (ex_pdu 25 (CBTransmitter ex_transmitter)) /\ CTransmitter_vtps ex_transmitter = [].
Proof. split; [apply cdis_transmitter_refuted_pf|reflexivity]. Qed.

(** ** Emission *)
Definition entries (x : CEmission) : Z := total (fun s => total (fun b => zlen (ceb_tracks b)) (cesy_beams s)) (CEmission_systems x).
Lemma zsum_low {A} (f g h : A -> Z) l : (forall a, f a + 5 - 2 * h a <= g a) -> zsum (map f l) + 5 * zlen l - 2 * zsum (map h l) <= zsum (map g l).
Proof. intros H. induction l as [|a l IH]; [reflexivity|]. cbn [map zsum]. rewrite zlen_cons. specialize (H a). lia. Qed.
Lemma systems_min n i r l : count p_cesy n i = POk r l -> zlen r + zsum (map bits_cesy l) + 5 * zlen l - 2 * zsum (map tracks_of l) <= zlen i.
Proof.
  intros H. apply (BMin_count _ _ _ BMin_cesy) in H.
  pose proof (zsum_low bits_cesy (fun s => bits_cesy s + len_uvint8 (cesy_number s) - 2 * tracks_of s) tracks_of l) as E. cbv beta in E, H.
  assert (Q : forall s, bits_cesy s + 5 - 2 * tracks_of s <= bits_cesy s + len_uvint8 (cesy_number s) - 2 * tracks_of s); [|specialize (E Q); clear - E H; lia].
  intros s. assert (5 <= len_uvint8 (cesy_number s)) by (unfold len_uvint8, len_vint, uvint8_bits; destruct (uvint8_class _ =? 0); lia). lia.
Qed.
Lemma entries_tracks x : entries x = zsum (map tracks_of (CEmission_systems x)).
Proof.
  unfold entries. rewrite <- zsum_total. f_equal. apply map_ext. intros s. unfold tracks_of. now rewrite <- zsum_total.
Qed.
Ltac peel_with K := let bs := fresh "bs" in let W := fresh "W" in let P := fresh "P" in
  match goal with Hw : wbind _ _ = WOk _ tt, Hr : pbind _ _ _ = POk _ _ |- _ => destruct (peel _ _ _ _ _ _ _ _ _ K Hw Hr) as (bs & W & P); clear Hw Hr; cbv beta in W, P end.
Lemma emission_short m x bs r : wfits_CEmission x -> 2 * entries x < 5 * zlen (CEmission_systems x) ->
  w_cemission m x = WOk bs tt -> p_cemission bs = POk r x -> False.
Proof.
  intros (H1 & H2 & H3 & H4 & H5 & H6 & H7 & H8 & H9 & H10 & H11) He W P. unfold w_cemission in W. unfold p_cemission in P. rewrite entries_tracks in He.
  rewrite Forall_forall in H4, H5, H6. pose proof (zlen_nonneg (CEmission_params x)). pose proof (zlen_nonneg (CEmission_beams x)). pose proof (zlen_nonneg (CEmission_sites x)).
  pose proof (zlen_nonneg (CEmission_systems x)).
  peel_with (BRT_bool (CEmission_full x)).
  peel_with (BRT_put 64 5 (zlen (CEmission_params x)) ltac:(lia) ltac:(unfold ub; change (2 ^ 5) with 32; lia)).
  peel_with (BRT_put 64 5 (zlen (CEmission_beams x)) ltac:(lia) ltac:(unfold ub; change (2 ^ 5) with 32; lia)).
  peel_with (BRT_put 64 5 (zlen (CEmission_sites x)) ltac:(lia) ltac:(unfold ub; change (2 ^ 5) with 32; lia)).
  peel_with (BRT_ceid m _ H1). peel_with (BRT_ceid m _ H2). peel_with (BRT_put 8 1 (CEmission_sui x) ltac:(lia) H3).
  peel_with (BRT_uvint8 (zlen (CEmission_systems x) mod 256) ltac:(unfold ub; change (2 ^ 8) with 256; apply Z.mod_pos_bound; lia)).
  peel_with (BRT_list (fun a => w_cfp m a) p_cfp len_cfp (CEmission_params x) _ eq_refl (fun a I => BRT_cfp m a (H4 a I))).
  peel_with (BRT_list_img (fun a => w_cbeam_data m a) p_cbeam_data img_cbeam_data (fun b => len_cbeam_data (img_cbeam_data b)) (CEmission_beams x) _ eq_refl (fun a I => BRT_cbeam_data m a (H5 a I))).
  peel_with (BRT_list (fun a => w_csa m a) p_csa len_csa (CEmission_sites x) _ eq_refl (fun a I => BRT_csa m a (H6 a I))).
  match goal with Q : pbind _ _ _ = POk _ _ |- _ => destruct (bbind_ok _ _ _ _ _ Q) as (r' & l & Pl & E); clear Q; apply bret_ok in E as [_ E] end.
  assert (El : CEmission_systems x = l) by (rewrite E; reflexivity). subst l. apply systems_min in Pl.
  match goal with W : _ = WOk ?b tt |- _ => assert (B : zlen b = zsum (map bits_cesy (CEmission_systems x))) end.
  { match goal with W : ?w = WOk ?b tt |- _ => assert (B : BLen w (zsum (map bits_cesy (CEmission_systems x)) + 0)) end.
    - eapply BLen_bind; [apply BLen_list with (len := bits_cesy); intros; lenf; now apply BLen_cesy|apply BLen_ret].
    - destruct B as (b' & Eb & Lb). match goal with |- zlen ?b = _ => assert (Ebb : b = b') by congruence; rewrite Ebb end. lia. }
  pose proof (zlen_nonneg r'). lia.
Qed.
(*@C28
   It fails for every Emission PDU with emitter systems, too, as long as they hold fewer than five track or jam entries for every two systems: the writer leaves
   out the number of every system, and nothing the reader could do instead with the bits that follow gives the same systems. *)
Lemma cdis_emission_never_pf : forall m h x, wfits_CPdu (MkCPdu h (CBEmission x)) ->
  2 * total (fun s => total (fun b => zlen (ceb_tracks b)) (cesy_beams s)) (CEmission_systems x) < 5 * zlen (CEmission_systems x) ->
  forall n, ~ reads_back (w_cpdu m (MkCPdu h (CBEmission x))) p_cpdu (MkCPdu h (CBEmission x)) n.
Proof.
  intros m h x F He n R. pose proof (reads_back_nonneg _ _ _ _ R) as Hn. apply reads_back_bits in R as (bs & W & El & P); [|exact Hn].
  destruct F as [F1 F2]. cbn [cp_header cp_body wfits_cbody] in F1, F2. unfold w_cpdu in W. unfold p_cpdu in P. cbn [cp_header cp_body w_cbody] in W.
  peel_with (BRT_cheader h F1). apply bbind_ok in P0 as (r' & b & P0 & E). apply bret_ok in E as [_ E]. injection E as <-.
  apply emission_reads in P0. destruct (BLen_cemission m x F2) as (b1 & E1 & _).
  assert (Eb : bs0 = b1). { unfold wbind in W0. rewrite E1 in W0. assert (Q : WOk (b1 ++ []) tt = WOk bs0 tt) by exact W0. rewrite app_nil_r in Q. now injection Q. }
  subst bs0. eapply emission_short; eassumption.
Qed.
(*@ex*)
Example cdis_emission_never_example : wfits_CPdu (ex_pdu 23 (CBEmission ex_emission)) /\ 2 * total (fun s => total (fun b => zlen (ceb_tracks b)) (cesy_beams s)) (CEmission_systems ex_emission) < 5 * zlen (CEmission_systems ex_emission).
Proof. split; [apply cdis_emission_refuted_pf|reflexivity]. Qed.

(** * The gateway's configuration (lemmas) *)
From Coq Require Import ZArith List Lia Bool Ascii String.
From Verif Require Import Base DisCommon DisEntity DisPdu CdisCodec2 SpecCodec L_Codec GatewayConfig SpecConfig.
Import ListNotations. Open Scope Z_scope.

(** ** Words *)
Definition lower_letter (w : text) : Prop := Forall (fun c => (97 <= c <= 122 \/ c = 95) /\ c <> 107) w.
Lemma text_eqb_eq a b : text_eqb a b = true <-> a = b.
Proof.
  revert b. induction a as [|x a IH]; intros [|y b]; cbn [text_eqb]; try (split; [discriminate|discriminate]); [tauto|].
  rewrite andb_true_iff, Z.eqb_eq, IH. split; [intros [-> ->]; reflexivity|intros H; injection H; auto].
Qed.
Lemma lower_spelled lower w t : unicode_lower lower -> lower_letter w ->
  (to_lowercase lower t = w <-> Forall2 (fun c x => x = c \/ (97 <= c <= 122 /\ x = c - 32)) w t).
Proof.
  intros U. unfold to_lowercase. revert w. induction t as [|x t IH]; intros w L; cbn [flat_map].
  - split; [intros <-; constructor|intros H; inversion H; reflexivity].
  - unfold lower_char at 1. destruct (Z.ltb_spec x 128) as [X|X].
    + cbn [app]. split.
      * intros <-. inversion L as [|? ? [A _] L']; subst. constructor; [|apply IH; [exact L'|reflexivity]].
        destruct ((65 <=? x) && (x <=? 90)) eqn:E; [right|left; reflexivity].
        apply andb_true_iff in E. destruct E as [E1 E2]. apply Z.leb_le in E1, E2. lia.
      * intros H. inversion H as [|c ? w' ? A B]; subst. inversion L as [|? ? [C _] L']; subst. f_equal; [|apply IH; assumption].
        destruct A as [->|[A ->]].
        -- destruct ((65 <=? c) && (c <=? 90)) eqn:E; [|reflexivity]. apply andb_true_iff in E. destruct E as [E1 E2]. apply Z.leb_le in E1, E2. lia.
        -- destruct (Z.leb_spec 65 (c - 32)), (Z.leb_spec (c - 32) 90); cbn [andb]; lia.
    + split.
      * intros <-. exfalso. specialize (U x X). unfold lower_letter in L. rewrite Forall_app in L. destruct L as [L _]. apply Exists_exists in U. destruct U as (y & I & Y).
        rewrite Forall_forall in L. destruct (L y I) as [Q1 Q2]. lia.
      * intros H. exfalso. inversion H as [|c ? w' ? A B]; subst. inversion L as [|? ? [C _] L']; subst. lia.
Qed.
Ltac letters := vm_compute; repeat constructor; try lia; intros; discriminate.
Lemma eqb_spelled lower w t : unicode_lower lower -> lower_letter (word w) -> text_eqb (to_lowercase lower t) (word w) = true <-> spelled w t.
Proof. intros U L. rewrite text_eqb_eq. apply lower_spelled; assumption. Qed.
Lemma spelled_same a b t : spelled a t -> spelled b t -> lower_letter (word a) -> lower_letter (word b) -> word a = word b.
Proof.
  unfold spelled. generalize (word a) as u, (word b) as v. intros u v H. revert v. induction H as [|x y u l A H IH]; intros v K L1 L2; inversion K as [|x' ? v' ? A' K']; subst; [reflexivity|].
  inversion L1 as [|? ? [P _] L1']; inversion L2 as [|? ? [P' _] L2']; subst. f_equal; [|apply IH; assumption]. lia.
Qed.

Section Cases.
Context {A : Type} (lower : Z -> text) (addr : text -> option A) (U : unicode_lower lower).
Ltac use_words t :=
  repeat match goal with |- context [text_eqb (to_lowercase lower t) (word ?w)] =>
    let E := fresh "E" in pose proof (eqb_spelled lower w t U ltac:(letters)) as E; destruct (text_eqb (to_lowercase lower t) (word w)) end.
Definition is_mode (o : option text) (l : Load bool) (off on : string) (e : ConfigError) (d : bool) : Prop :=
  match l with
  | Loaded b => one_of [off; on] o /\ (b = true <-> says on o \/ (d = true /\ o = None))
  | Invalid e' => e' = e /\ ~ one_of [off; on] o
  | Crashed => False
  end.
Ltac pick_word E := first [left; apply E; reflexivity|right; pick_word E].
Ltac no_word := intros ?Q; specialize (Q _ eq_refl); repeat rewrite Exists_cons in Q; rewrite Exists_nil in Q.
Ltac clash := match goal with H1 : spelled ?a ?t, H2 : spelled ?b ?t |- _ =>
  let K := fresh in pose proof (spelled_same a b t H1 H2 ltac:(letters) ltac:(letters)) as K; vm_compute in K; discriminate K end.
Lemma mode_spec o : is_mode o (match o with Some t => gateway_mode lower t | None => Loaded false end) "full_update" "partial_update" EGatewayMode false.
Proof.
  destruct o as [t|]; [|cbn; split; [intros ? H; discriminate H|split; [discriminate|intros [(? & H & _)|[H _]]; discriminate H]]].
  unfold gateway_mode. cbv zeta. use_words t; cbn [is_mode].
  - split; [intros ? H; injection H as <-; left; apply E; reflexivity|]. split; [discriminate|]. intros [(? & H & S)|[H _]]; [injection H as <-|discriminate H].
    assert (S' : spelled "full_update" t) by (apply E; reflexivity). clash.
  - split; [intros ? H; injection H as <-; right; left; apply E0; reflexivity|]. split; [intros _; left; exists t; split; [reflexivity|apply E0; reflexivity]|reflexivity].
  - split; [reflexivity|]. no_word. destruct Q as [Q|[Q|Q]]; [apply E in Q; discriminate Q|apply E0 in Q; discriminate Q|exact Q].
Qed.
Lemma optimization_spec o : is_mode o (match o with Some t => encoder_optimization lower t | None => Loaded true end) "bandwidth" "completeness" EOptimizationMode true.
Proof.
  destruct o as [t|]; [|cbn; split; [intros ? H; discriminate H|split; [intros _; right; split; reflexivity|reflexivity]]].
  unfold encoder_optimization. cbv zeta. use_words t; cbn [is_mode].
  - split; [intros ? H; injection H as <-; left; apply E; reflexivity|]. split; [discriminate|]. intros [(? & H & S)|[_ H]]; [injection H as <-|discriminate H].
    assert (S' : spelled "bandwidth" t) by (apply E; reflexivity). clash.
  - split; [intros ? H; injection H as <-; right; left; apply E0; reflexivity|]. split; [intros _; left; exists t; split; [reflexivity|apply E0; reflexivity]|reflexivity].
  - split; [reflexivity|]. no_word. destruct Q as [Q|[Q|Q]]; [apply E in Q; discriminate Q|apply E0 in Q; discriminate Q|exact Q].
Qed.
Definition is_endpoint (x : EndPointSpec) (l : Load (UdpEndpoint A)) : Prop :=
  match l with
  | Loaded e => good_udp_mode x /\ good_interface addr x /\ endpoint_as_asked addr x e /\ ue_address e = ue_interface e
  | Invalid e' => e' = EUdpMode /\ ~ good_udp_mode x
  | Crashed => good_udp_mode x /\ ~ good_interface addr x
  end.
Lemma unopt_chosen {X} (o : option X) d : chosen o d (unopt_or o d).
Proof. destruct o; reflexivity. Qed.
Lemma endpoint_rest x md : good_udp_mode x -> (md = BroadCast <-> says "broadcast" (ep_mode x)) -> (md = MultiCast <-> says "multicast" (ep_mode x)) ->
  is_endpoint x (lbind (Loaded md) (fun md : UdpMode =>
    match addr (ep_interface x) with
    | None => Crashed
    | Some i => match addr (ep_interface x) with None => Crashed
                | Some a => Loaded (MkUdpEndpoint md i a (unopt_or (ep_ttl x) 1) (unopt_or (ep_block_own_socket x) true)) end end)).
Proof.
  intros G B M. cbn [lbind]. unfold is_endpoint. destruct (addr (ep_interface x)) as [a|] eqn:E.
  - split; [exact G|]. split; [exists a; exact E|]. split; [|reflexivity]. unfold endpoint_as_asked. cbn [ue_interface ue_mode ue_ttl ue_block_own_socket].
    split; [exact E|]. split; [exact B|]. split; [exact M|]. split; apply unopt_chosen.
  - split; [exact G|]. intros (a & H). congruence.
Qed.
Lemma endpoint_spec x : is_endpoint x (udp_endpoint lower addr x).
Proof.
  unfold udp_endpoint. destruct (ep_mode x) as [t|] eqn:M.
  - unfold udp_mode. cbv zeta. use_words t.
    + assert (S' : spelled "unicast" t) by (apply E; reflexivity). apply endpoint_rest; unfold good_udp_mode; rewrite M.
      * intros ? H; injection H as <-. left. exact S'.
      * split; [discriminate|]. intros (? & H & S); injection H as <-. clash.
      * split; [discriminate|]. intros (? & H & S); injection H as <-. clash.
    + assert (S' : spelled "broadcast" t) by (apply E0; reflexivity). apply endpoint_rest; unfold good_udp_mode; rewrite M.
      * intros ? H; injection H as <-. right; left. exact S'.
      * split; [intros _; exists t; split; [reflexivity|exact S']|reflexivity].
      * split; [discriminate|]. intros (? & H & S); injection H as <-. clash.
    + assert (S' : spelled "multicast" t) by (apply E1; reflexivity). apply endpoint_rest; unfold good_udp_mode; rewrite M.
      * intros ? H; injection H as <-. right; right; left. exact S'.
      * split; [discriminate|]. intros (? & H & S); injection H as <-. clash.
      * split; [intros _; exists t; split; [reflexivity|exact S']|reflexivity].
    + cbn [lbind is_endpoint]. split; [reflexivity|]. unfold good_udp_mode. rewrite M. no_word.
      destruct Q as [Q|[Q|[Q|Q]]]; [apply E in Q; discriminate Q|apply E0 in Q; discriminate Q|apply E1 in Q; discriminate Q|exact Q].
  - apply endpoint_rest; unfold good_udp_mode; rewrite M; [intros ? H; discriminate H| |]; (split; [discriminate|intros (? & H & _); discriminate H]).
Qed.
End Cases.

(*@C56
 What loading a configuration comes to, for every configuration (any texts, in any Unicode characters) and whatever the address parser accepts: an unknown
 update mode is refused, and so is an unknown UDP mode or optimization; an interface that is no socket address makes the gateway panic; otherwise the
 gateway runs with what the file asks for: the words in any mixture of cases, and the documented default for everything the file leaves out. The four cases
 exclude each other, so this also says which fault is reported first. *)
Lemma config_outcome_pf : forall (A : Type) (lower : Z -> text) (addr : text -> option A) (s : ConfigSpec), unicode_lower lower ->
  let before_cdis := good_update_mode s /\ good_udp_mode (cs_dis s) /\ good_interface addr (cs_dis s) in
  let endpoints_fine := before_cdis /\ good_udp_mode (cs_cdis s) /\ good_interface addr (cs_cdis s) in
  match load lower addr s with
  | Invalid EGatewayMode => ~ good_update_mode s
  | Invalid EUdpMode => (good_update_mode s /\ ~ good_udp_mode (cs_dis s)) \/ (before_cdis /\ ~ good_udp_mode (cs_cdis s))
  | Crashed => (good_update_mode s /\ good_udp_mode (cs_dis s) /\ ~ good_interface addr (cs_dis s)) \/
               (before_cdis /\ good_udp_mode (cs_cdis s) /\ ~ good_interface addr (cs_cdis s))
  | Invalid EOptimizationMode => endpoints_fine /\ ~ good_optimization s
  | Loaded c =>
      endpoints_fine /\ good_optimization s /\
      (c_partial c = true <-> says "partial_update" (cs_update_mode s)) /\
      (c_complete c = false <-> exists o, cs_encoder s = Some o /\ says "bandwidth" o) /\
      endpoint_as_asked addr (cs_dis s) (c_dis c) /\ endpoint_as_asked addr (cs_cdis s) (c_cdis c) /\
      chosen (cs_site s) 8080 (c_site c) /\ chosen (cs_metadata s) metadata_default (c_meta c)
  end.
Proof.
  intros A lower addr s U before_cdis endpoints_fine. unfold load.
  pose proof (mode_spec lower U (cs_update_mode s)) as M. fold (good_update_mode s) in M.
  destruct (match cs_update_mode s with Some t => gateway_mode lower t | None => Loaded false end) as [p|e|]; cbn [lbind is_mode] in *; [|destruct M as [-> M]; exact M|contradiction].
  destruct M as [M1 M2]. fold (good_update_mode s) in M1.
  pose proof (endpoint_spec lower addr U (cs_dis s)) as D. destruct (udp_endpoint lower addr (cs_dis s)) as [d|e|]; cbn [lbind is_endpoint] in *;
    [|destruct D as [-> D]; left; split; assumption|left; destruct D; repeat split; assumption].
  destruct D as (D1 & D2 & D3 & _).
  pose proof (endpoint_spec lower addr U (cs_cdis s)) as C. assert (BC : before_cdis) by (split; [|split]; assumption).
  destruct (udp_endpoint lower addr (cs_cdis s)) as [c|e|]; cbn [lbind is_endpoint] in *;
    [|destruct C as [-> C]; right; split; assumption|right; destruct C; repeat split; assumption].
  destruct C as (C1 & C2 & C3 & _). assert (EF : endpoints_fine) by (split; [|split]; assumption).
  assert (O : is_mode (match cs_encoder s with Some o => o | None => None end)
     (match cs_encoder s with Some e => match e with Some t => encoder_optimization lower t | None => Loaded true end | None => Loaded true end)
     "bandwidth" "completeness" EOptimizationMode true).
  { pose proof (optimization_spec lower U (match cs_encoder s with Some o => o | None => None end)) as O. destruct (cs_encoder s) as [[t|]|]; exact O. }
  destruct (match cs_encoder s with Some e => match e with Some t => encoder_optimization lower t | None => Loaded true end | None => Loaded true end) as [b|e|];
    cbn [lbind is_mode] in *; [|destruct O as [-> O]; split; [exact EF|]; intros G; apply O; unfold good_optimization in G; destruct (cs_encoder s); [apply G; reflexivity|intros ? H; discriminate H]|contradiction].
  destruct O as [O1 O2].
  split; [exact EF|]. split; [intros o Ho; rewrite Ho in O1; exact O1|]. cbn [c_partial c_complete c_dis c_cdis c_site c_meta].
  split; [rewrite M2; split; [intros [H|[H _]]; [exact H|discriminate H]|auto]|].
  split.
  - split.
    + intros ->. assert (N : ~ (says "completeness" (match cs_encoder s with Some o => o | None => None end) \/ true = true /\ (match cs_encoder s with Some o => o | None => None end) = None)) by (intros H; apply O2 in H; discriminate H).
      destruct (cs_encoder s) as [[t|]|]; [|exfalso; apply N; right; split; reflexivity..].
      exists (Some t). split; [reflexivity|]. exists t. split; [reflexivity|]. specialize (O1 t eq_refl). rewrite !Exists_cons, Exists_nil in O1.
      destruct O1 as [H|[H|H]]; [exact H|exfalso; apply N; left; exists t; split; [reflexivity|exact H]|contradiction].
    + intros (o & Ho & (t & -> & S)). rewrite Ho in O2. destruct b; [|reflexivity]. destruct O2 as [O2 _]. destruct (O2 eq_refl) as [(t' & H & S')|[_ H]]; [injection H as <-|discriminate H].
      pose proof (spelled_same _ _ t S S' ltac:(letters) ltac:(letters)) as K. vm_compute in K. discriminate K.
  - split; [exact D3|]. split; [exact C3|]. split; apply unopt_chosen.
Qed.
(*@C56
 The federation agreement: in every gateway that starts, the codecs use, for each kind of PDU whose updates are timed, the interval the file gives for
 it, or its default; and the file's multiplier, or 2.4. *)
Lemma config_federation_pf : forall (A : Type) (lower : Z -> text) (addr : text -> option A) (s : ConfigSpec) (c : Config A), load lower addr s = Loaded c ->
  (forall b, subject b <> None -> chosen (agreed s (fst (governing b))) (snd (governing b)) (heartbeat_parameter (o_hbt (encoder_options c)) b)) /\
  chosen (agreed s fs_full_update_mplier) f32_2_4 (o_mplier (encoder_options c)) /\
  o_partial (encoder_options c) = c_partial c /\ o_complete (encoder_options c) = c_complete c /\ decoder_options c = encoder_options c.
Proof.
  intros A lower addr s c H.
  assert (E : c_federation c = set_federation_parameters (cs_federation s) /\
              c_mplier c = match cs_federation s with Some f => unopt_or (fs_full_update_mplier f) f32_2_4 | None => f32_2_4 end).
  { unfold load in H. repeat match type of H with lbind ?a _ = _ => destruct a; cbn [lbind] in H; try discriminate H end. injection H as <-. split; reflexivity. }
  destruct E as [E1 E2]. unfold encoder_options. cbn [o_hbt o_mplier o_partial o_complete]. split; [|split; [|repeat split]].
  - rewrite E1. intros b Hb. unfold agreed, set_federation_parameters. destruct b; cbn [subject] in Hb; try contradiction; destruct (cs_federation s) as [f|]; cbn [governing fst snd heartbeat_parameter fe_hbt];
      try (apply unopt_chosen); try reflexivity;
      repeat match goal with |- context [match ?e with _ => _ end] => first [is_var e|match e with et_kind _ => idtac | et_domain _ => idtac end]; destruct e; try (apply unopt_chosen); try reflexivity end.
  - rewrite E2. unfold agreed. destruct (cs_federation s); [apply unopt_chosen|reflexivity].
Qed.
(*@C56
 Refutation: the uri of an endpoint, the remote address of the documentation, has no effect, whether it is an address or not: every gateway that
 starts sends to the address of its own interface, and two files that differ in uri, time to live, block flags and three of the federation members make gateways
 that behave alike. *)
Lemma config_uri_refuted_pf : forall (A : Type) (lower : Z -> text) (addr : text -> option A) (s : ConfigSpec),
  (forall c, load lower addr s = Loaded c -> addr (ep_interface (cs_dis s)) = Some (sends_to (c_dis c)) /\ addr (ep_interface (cs_cdis s)) = Some (sends_to (c_cdis c))) /\
  forall u1 u2 t1 t2 k1 k2 host f e1 e2 e3 is_v4 ok,
    let s1 := MkConfigSpec (cs_metadata s) (cs_update_mode s) (cs_block_host s) (cs_dis s) (cs_cdis s) (cs_site s) (cs_encoder s) (Some f) in
    let s2 := MkConfigSpec (cs_metadata s) (cs_update_mode s) host (other_uri u1 t1 k1 (cs_dis s)) (other_uri u2 t2 k2 (cs_cdis s)) (cs_site s) (cs_encoder s)
                (Some (other_unused f e1 e2 e3)) in
    match load lower addr s1, load lower addr s2 with
    | Loaded c1, Loaded c2 => behaviour is_v4 ok c1 = behaviour is_v4 ok c2
    | Invalid x, Invalid y => x = y
    | Crashed, Crashed => True
    | _, _ => False
    end.
Proof.
  intros A lower addr s. split.
  - intros c H. unfold load in H.
    destruct (match cs_update_mode s with Some t => gateway_mode lower t | None => Loaded false end); cbn [lbind] in H; try discriminate H.
    destruct (udp_endpoint lower addr (cs_dis s)) as [d| |] eqn:D; cbn [lbind] in H; try discriminate H.
    destruct (udp_endpoint lower addr (cs_cdis s)) as [k| |] eqn:K; cbn [lbind] in H; try discriminate H.
    match type of H with lbind ?a _ = _ => destruct a; cbn [lbind] in H; try discriminate H end. injection H as <-. cbn [c_dis c_cdis]. unfold sends_to.
    unfold udp_endpoint in D, K.
    match type of D with lbind ?a _ = _ => destruct a; cbn [lbind] in D; try discriminate D end.
    match type of K with lbind ?a _ = _ => destruct a; cbn [lbind] in K; try discriminate K end.
    destruct (addr (ep_interface (cs_dis s))); [|discriminate D]. destruct (addr (ep_interface (cs_cdis s))); [|discriminate K].
    injection D as <-. injection K as <-. split; reflexivity.
  - intros u1 u2 t1 t2 k1 k2 host f e1 e2 e3 is_v4 ok s1 s2. unfold load, s1, s2. cbn [cs_update_mode cs_dis cs_cdis cs_site cs_encoder cs_federation cs_metadata].
    destruct (match cs_update_mode s with Some t => gateway_mode lower t | None => Loaded false end); cbn [lbind]; [|reflexivity|exact I].
    unfold udp_endpoint, other_uri. cbn [ep_mode ep_interface ep_ttl ep_block_own_socket].
    destruct (match ep_mode (cs_dis s) with Some t => udp_mode lower t | None => Loaded UniCast end); cbn [lbind]; [|reflexivity|exact I].
    destruct (addr (ep_interface (cs_dis s))); cbn [lbind]; [|exact I].
    destruct (match ep_mode (cs_cdis s) with Some t => udp_mode lower t | None => Loaded UniCast end); cbn [lbind]; [|reflexivity|exact I].
    destruct (addr (ep_interface (cs_cdis s))); cbn [lbind]; [|exact I].
    match goal with |- match lbind ?a _ with _ => _ end => destruct a; cbn [lbind]; [|reflexivity|exact I] end.
    unfold behaviour, encoder_options, decoder_options, create_udp_socket, socket_plan, sends_to, other_unused. cbn. reflexivity.
Qed.
(*@C56
 The sockets: whatever fails, a gateway opens a socket of the address family of its interface, never binds it to anything but the interface, and a
 socket that is ready in unicast mode has been bound, or its IPv4 bind failed and was only logged. A socket that is ready may share its address, does not block,
 may broadcast exactly in broadcast mode (or an IPv4 refusal of that was only logged), and has asked to join the group exactly in multicast mode. *)
Lemma config_sockets_pf : forall (A : Type) (lower : Z -> text) (addr : text -> option A) (s : ConfigSpec) (c : Config A) is_v4 ok, load lower addr s = Loaded c ->
  forall x e, (x, e) = (cs_dis s, c_dis c) \/ (x, e) = (cs_cdis s, c_cdis c) ->
  forall a, addr (ep_interface x) = Some a ->
  let (ops, ready) := create_udp_socket is_v4 ok e in
  (exists r, ops = Open (is_v4 a) :: r) /\ (forall b, In (Bind b) ops -> b = a) /\
  (forall n, In (SetTtl n) ops -> n = 1 /\ ue_mode e = BroadCast) /\
  (ready = true -> In (Bind a) ops <-> ue_mode e <> MultiCast) /\
  (ready = true -> is_v4 a = false -> ue_mode e <> MultiCast -> ok (Bind a) = true) /\
  (ready = true -> In ReuseAddress ops /\ In ReusePort ops /\ In NonBlocking ops) /\
  (ready = true -> In SetBroadcast ops <-> ue_mode e = BroadCast) /\
  (ready = true -> is_v4 a = false -> ue_mode e = BroadCast -> ok SetBroadcast = true) /\
  (ready = true -> is_v4 a = true -> In (JoinV4 a a) ops <-> ue_mode e = MultiCast) /\
  (ready = true -> is_v4 a = false -> In (JoinV6 a 0) ops <-> ue_mode e = MultiCast) /\
  (ready = false -> exists r op, ops = r ++ [op] /\ ok op = false).
Proof.
  intros A lower addr s c is_v4 ok H x e P a Ha.
  assert (Q : ue_interface e = a /\ ue_address e = a).
  { unfold load in H.
    destruct (match cs_update_mode s with Some t => gateway_mode lower t | None => Loaded false end); cbn [lbind] in H; try discriminate H.
    destruct (udp_endpoint lower addr (cs_dis s)) as [d| |] eqn:D; cbn [lbind] in H; try discriminate H.
    destruct (udp_endpoint lower addr (cs_cdis s)) as [k| |] eqn:K; cbn [lbind] in H; try discriminate H.
    match type of H with lbind ?a _ = _ => destruct a; cbn [lbind] in H; try discriminate H end. injection H as <-. cbn [c_dis c_cdis] in P.
    unfold udp_endpoint in D, K.
    match type of D with lbind ?a _ = _ => destruct a; cbn [lbind] in D; try discriminate D end.
    match type of K with lbind ?a _ = _ => destruct a; cbn [lbind] in K; try discriminate K end.
    destruct P as [P|P]; injection P as -> ->.
    - rewrite Ha in D. injection D as <-. split; reflexivity.
    - rewrite Ha in K. injection K as <-. split; reflexivity. }
  destruct Q as [Q1 Q2]. unfold create_udp_socket, socket_plan. rewrite Q1, Q2.
  destruct (is_v4 a) eqn:V; destruct (ue_mode e) eqn:M; cbn [app do_ops andb negb];
    repeat match goal with |- context [if negb (ok ?o) then _ else _] => destruct (ok o) eqn:?; cbn [negb] end;
    (split; [eexists; reflexivity|]); cbn [In];
    repeat split; intros; repeat match goal with K : _ \/ _ |- _ => destruct K end; try discriminate; try contradiction; try congruence; auto 12;
    match goal with
    | K : Bind _ = Bind _ |- _ => injection K; congruence
    | K : SetTtl _ = SetTtl _ |- _ => injection K; congruence
    | |- exists r op, ?l = r ++ [op] /\ _ =>
        first [exists (@nil (SocketOp A)); eexists; split; [reflexivity|assumption]|exists [Open false; ReuseAddress; ReusePort; NonBlocking]; eexists; split; [reflexivity|assumption]|
               exists [Open true; ReuseAddress; ReusePort; NonBlocking]; eexists; split; [reflexivity|assumption]|
               exists [Open false; ReuseAddress; ReusePort; NonBlocking; SetBroadcast]; eexists; split; [reflexivity|assumption]|
               exists [Open false; ReuseAddress; ReusePort; NonBlocking; SetBroadcast; SetTtl 1]; eexists; split; [reflexivity|assumption]]
    | _ => idtac
    end.
Qed.
(*@C56
 Refutation: a unicast gateway cannot reach anyone. What it sends over a socket bound to its interface goes to that same address, and the reader drops
 what comes from it: for every file that loads, in whatever mode, over all addresses with decidable equality. *)
Lemma config_loopback_refuted_pf : forall (A : Type) (eqb : A -> A -> bool) (lower : Z -> text) (addr : text -> option A) (s : ConfigSpec) (c : Config A),
  (forall a b, eqb a b = true <-> a = b) -> load lower addr s = Loaded c ->
  forall e, e = c_dis c \/ e = c_cdis c -> sends_to e = ue_interface e /\ takes_from eqb (ue_interface e) (sends_to e) = false.
Proof.
  intros A eqb lower addr s c E H e P.
  assert (Q : sends_to e = ue_interface e).
  { unfold load in H.
    destruct (match cs_update_mode s with Some t => gateway_mode lower t | None => Loaded false end); cbn [lbind] in H; try discriminate H.
    destruct (udp_endpoint lower addr (cs_dis s)) as [d| |] eqn:D; cbn [lbind] in H; try discriminate H.
    destruct (udp_endpoint lower addr (cs_cdis s)) as [k| |] eqn:K; cbn [lbind] in H; try discriminate H.
    match type of H with lbind ?a _ = _ => destruct a; cbn [lbind] in H; try discriminate H end. injection H as <-. cbn [c_dis c_cdis] in P.
    unfold udp_endpoint in D, K.
    match type of D with lbind ?a _ = _ => destruct a; cbn [lbind] in D; try discriminate D end.
    match type of K with lbind ?a _ = _ => destruct a; cbn [lbind] in K; try discriminate K end.
    destruct (addr (ep_interface (cs_dis s))); [|discriminate D]. destruct (addr (ep_interface (cs_cdis s))); [|discriminate K].
    injection D as <-. injection K as <-. destruct P as [-> | ->]; reflexivity. }
  split; [exact Q|]. rewrite Q. unfold takes_from. replace (eqb (ue_interface e) (ue_interface e)) with true by (symmetry; apply E; reflexivity). reflexivity.
Qed.
(** a sample: the address parser reads the length of a text as the address, unless it is zero *)
Definition sample_addr (t : text) : option Z := match t with [] => None | _ => Some (zlen t) end.
Definition sample_ep (mode : option text) (i : string) : EndPointSpec := MkEndPointSpec (word "somewhere else") (word i) mode (Some 7) None.
Definition sample_spec (mode : string) (i : string) : ConfigSpec :=
  MkConfigSpec None (Some (word mode)) None (sample_ep (Some (word "BroadCast")) "0.0.0.0:3000") (sample_ep None i) (Some 80) (Some (Some (word "bandWIDTH")))
    (Some (MkFederationSpec (Some f32_10) None None None None None None None None None (Some f32_1) None None None None None None None None None None)).
(*@ex*)
Example config_example : unicode_lower (fun c => [c]) /\
  (exists c, load (fun c => [c]) sample_addr (sample_spec "Partial_UPDATE" "[::1]:3001") = Loaded c /\ c_partial c = true /\ c_complete c = false /\
     ue_mode (c_dis c) = BroadCast /\ ue_mode (c_cdis c) = UniCast /\ c_site c = 80 /\ c_mplier c = f32_10 /\ hb_air (fe_hbt (c_federation c)) = f32_1) /\
  load (fun c => [c]) sample_addr (sample_spec "partial" "x") = Invalid EGatewayMode /\ load (fun c => [c]) sample_addr (sample_spec "full_update" "") = Crashed.
Proof.
  split; [intros c H; left; left; exact H|]. split; [eexists; split; [vm_compute; reflexivity|repeat split]|]. split; vm_compute; reflexivity.
Qed.

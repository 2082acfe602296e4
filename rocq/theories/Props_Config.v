(** * Properties: Config

    Theorems only: each is closed by the lemma of the same name in L_Config.v. *)
From Coq Require Import ZArith List Lia Bool String Ascii.
From Verif Require Import Base DisCommon DisEntity DisPdu CdisCodec2 SpecCodec L_Codec GatewayConfig SpecConfig L_Config.
Import ListNotations. Open Scope Z_scope.

(** C56. What loading a configuration comes to, for every configuration (any texts, in any Unicode characters) and whatever the address parser accepts: an unknown
 update mode is refused, and so is an unknown UDP mode or optimization; an interface that is no socket address makes the gateway panic; otherwise the
 gateway runs with what the file asks for: the words in any mixture of cases, and the documented default for everything the file leaves out. The four cases
 exclude each other, so this also says which fault is reported first. *)
Theorem config_outcome : forall (A : Type) (lower : Z -> text) (addr : text -> option A) (s : ConfigSpec), unicode_lower lower ->
  let before_cdis := good_update_mode s /\ good_udp_mode (cs_dis s) /\ good_interface addr (cs_dis s) in
  let endpoints_fine := before_cdis /\ good_udp_mode (cs_cdis s) /\ good_interface addr (cs_cdis s) in
  match load lower addr s with
  | Invalid EGatewayMode => ~ good_update_mode s
  | Invalid EUdpMode => (good_update_mode s /\ ~ good_udp_mode (cs_dis s)) \/ (before_cdis /\ ~ good_udp_mode (cs_cdis s))
  | Crashed => (good_update_mode s /\ good_udp_mode (cs_dis s) /\ ~ good_interface addr (cs_dis s)) \/
               (before_cdis /\ good_udp_mode (cs_cdis s) /\ ~ good_interface addr (cs_cdis s))
  | Invalid EOptimizationMode => endpoints_fine /\ ~ good_optimization s
  | Loaded c =>
      endpoints_fine /\ good_optimization s /\
      (c_partial c = true <-> says "partial_update" (cs_update_mode s)) /\
      (c_complete c = false <-> exists o, cs_encoder s = Some o /\ says "bandwidth" o) /\
      endpoint_as_asked addr (cs_dis s) (c_dis c) /\ endpoint_as_asked addr (cs_cdis s) (c_cdis c) /\
      chosen (cs_site s) 8080 (c_site c) /\ chosen (cs_metadata s) metadata_default (c_meta c)
  end.
Proof. exact config_outcome_pf. Qed.
Print Assumptions config_outcome.

(** C56. The federation agreement: in every gateway that starts, the codecs use, for each kind of PDU whose updates are timed, the interval the file gives for
 it, or its default; and the file's multiplier, or 2.4. *)
Theorem config_federation : forall (A : Type) (lower : Z -> text) (addr : text -> option A) (s : ConfigSpec) (c : Config A), load lower addr s = Loaded c ->
  (forall b, subject b <> None -> chosen (agreed s (fst (governing b))) (snd (governing b)) (heartbeat_parameter (o_hbt (encoder_options c)) b)) /\
  chosen (agreed s fs_full_update_mplier) f32_2_4 (o_mplier (encoder_options c)) /\
  o_partial (encoder_options c) = c_partial c /\ o_complete (encoder_options c) = c_complete c /\ decoder_options c = encoder_options c.
Proof. exact config_federation_pf. Qed.
Print Assumptions config_federation.

(** C56. Refutation: the uri of an endpoint, the remote address of the documentation, has no effect, whether it is an address or not: every gateway that
 starts sends to the address of its own interface, and two files that differ in uri, time to live, block flags and three of the federation members make gateways
 that behave alike. *)
Theorem config_uri_refuted : forall (A : Type) (lower : Z -> text) (addr : text -> option A) (s : ConfigSpec),
  (forall c, load lower addr s = Loaded c -> addr (ep_interface (cs_dis s)) = Some (sends_to (c_dis c)) /\ addr (ep_interface (cs_cdis s)) = Some (sends_to (c_cdis c))) /\
  forall u1 u2 t1 t2 k1 k2 host f e1 e2 e3 is_v4 ok,
    let s1 := MkConfigSpec (cs_metadata s) (cs_update_mode s) (cs_block_host s) (cs_dis s) (cs_cdis s) (cs_site s) (cs_encoder s) (Some f) in
    let s2 := MkConfigSpec (cs_metadata s) (cs_update_mode s) host (other_uri u1 t1 k1 (cs_dis s)) (other_uri u2 t2 k2 (cs_cdis s)) (cs_site s) (cs_encoder s)
                (Some (other_unused f e1 e2 e3)) in
    match load lower addr s1, load lower addr s2 with
    | Loaded c1, Loaded c2 => behaviour is_v4 ok c1 = behaviour is_v4 ok c2
    | Invalid x, Invalid y => x = y
    | Crashed, Crashed => True
    | _, _ => False
    end.
Proof. exact config_uri_refuted_pf. Qed.
Print Assumptions config_uri_refuted.

(** C56. The sockets: whatever fails, a gateway opens a socket of the address family of its interface, never binds it to anything but the interface, and a
 socket that is ready in unicast mode has been bound, or its IPv4 bind failed and was only logged. A socket that is ready may share its address, does not block,
 may broadcast exactly in broadcast mode (or an IPv4 refusal of that was only logged), and has asked to join the group exactly in multicast mode. *)
Theorem config_sockets : forall (A : Type) (lower : Z -> text) (addr : text -> option A) (s : ConfigSpec) (c : Config A) is_v4 ok, load lower addr s = Loaded c ->
  forall x e, (x, e) = (cs_dis s, c_dis c) \/ (x, e) = (cs_cdis s, c_cdis c) ->
  forall a, addr (ep_interface x) = Some a ->
  let (ops, ready) := create_udp_socket is_v4 ok e in
  (exists r, ops = Open (is_v4 a) :: r) /\ (forall b, In (Bind b) ops -> b = a) /\
  (forall n, In (SetTtl n) ops -> n = 1 /\ ue_mode e = BroadCast) /\
  (ready = true -> In (Bind a) ops <-> ue_mode e <> MultiCast) /\
  (ready = true -> is_v4 a = false -> ue_mode e <> MultiCast -> ok (Bind a) = true) /\
  (ready = true -> In ReuseAddress ops /\ In ReusePort ops /\ In NonBlocking ops) /\
  (ready = true -> In SetBroadcast ops <-> ue_mode e = BroadCast) /\
  (ready = true -> is_v4 a = false -> ue_mode e = BroadCast -> ok SetBroadcast = true) /\
  (ready = true -> is_v4 a = true -> In (JoinV4 a a) ops <-> ue_mode e = MultiCast) /\
  (ready = true -> is_v4 a = false -> In (JoinV6 a 0) ops <-> ue_mode e = MultiCast) /\
  (ready = false -> exists r op, ops = r ++ [op] /\ ok op = false).
Proof. exact config_sockets_pf. Qed.
Print Assumptions config_sockets.

(** C56. Refutation: a unicast gateway cannot reach anyone. What it sends over a socket bound to its interface goes to that same address, and the reader drops
 what comes from it: for every file that loads, in whatever mode, over all addresses with decidable equality. *)
Theorem config_loopback_refuted : forall (A : Type) (eqb : A -> A -> bool) (lower : Z -> text) (addr : text -> option A) (s : ConfigSpec) (c : Config A),
  (forall a b, eqb a b = true <-> a = b) -> load lower addr s = Loaded c ->
  forall e, e = c_dis c \/ e = c_cdis c -> sends_to e = ue_interface e /\ takes_from eqb (ue_interface e) (sends_to e) = false.
Proof. exact config_loopback_refuted_pf. Qed.
Print Assumptions config_loopback_refuted.

Example config_example : unicode_lower (fun c => [c]) /\
  (exists c, load (fun c => [c]) sample_addr (sample_spec "Partial_UPDATE" "[::1]:3001") = Loaded c /\ c_partial c = true /\ c_complete c = false /\
     ue_mode (c_dis c) = BroadCast /\ ue_mode (c_cdis c) = UniCast /\ c_site c = 80 /\ c_mplier c = f32_10 /\ hb_air (fe_hbt (c_federation c)) = f32_1) /\
  load (fun c => [c]) sample_addr (sample_spec "partial" "x") = Invalid EGatewayMode /\ load (fun c => [c]) sample_addr (sample_spec "full_update" "") = Crashed.
Proof.
  split; [intros c H; left; left; exact H|]. split; [eexists; split; [vm_compute; reflexivity|repeat split]|]. split; vm_compute; reflexivity.
Qed.

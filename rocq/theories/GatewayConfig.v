(** * The gateway's configuration and its sockets

    Models cdis-gateway/src/config.rs (Config::try_from and what it calls), Encoder::new and Decoder::new of cdis-gateway/src/codec.rs, and create_udp_socket
    of cdis-gateway/src/main.rs.
    Simplifications. The configuration file has been read: the model starts at ConfigSpec, the structure serde fills from the TOML text. Text is a list
    of Unicode scalar values. [lower] is the image of a non-ASCII character under str::to_lowercase (the images of ASCII characters are fixed here; the
    context rule for a final sigma is ignored: both images are outside ASCII), [addr] is str::parse::<SocketAddr>, [A] its results; the theorems quantify over
    them. Numbers (f32) are bit patterns. Display and Debug are left out. *)
From Coq Require Import ZArith List Bool Ascii String.
From Verif Require Import Base CdisCodec2.
Import ListNotations. Open Scope Z_scope.

Definition text := list Z.
(** a literal of the source *)
Definition word (s : string) : text := map (fun c => Z.of_nat (nat_of_ascii c)) (list_ascii_of_string s).
Fixpoint text_eqb (a b : text) : bool := match a, b with [], [] => true | x :: a', y :: b' => (x =? y) && text_eqb a' b' | _, _ => false end.

(** ** What the file says *)
(* config.rs:340-346 *)
Record EndPointSpec := MkEndPointSpec { ep_uri : text; ep_interface : text; ep_mode : option text; ep_ttl : option Z; ep_block_own_socket : option bool }.
(* config.rs:359-381 *)
Record FederationSpec := MkFederationSpec {
  fs_full_update_mplier : option Z; fs_cultural_feature : option Z; fs_environmental : option Z; fs_expendable : option Z; fs_life_form : option Z;
  fs_munition : option Z; fs_radio : option Z; fs_sensor : option Z; fs_emitter : option Z; fs_supply : option Z; fs_air : option Z; fs_land : option Z;
  fs_space : option Z; fs_subsurface : option Z; fs_surface : option Z; fs_designator : option Z; fs_ee : option Z; fs_iff : option Z;
  fs_transmitter : option Z; fs_stationary : option Z; fs_timeout_mplier : option Z }.
(* config.rs:323-327 *)
Record MetaData := MkMetaData { md_name : text; md_author : text; md_version : text }.
(* config.rs:311-320, 349-356: SiteSpec is its port, EncoderSpec its optimization *)
Record ConfigSpec := MkConfigSpec {
  cs_metadata : option MetaData; cs_update_mode : option text; cs_block_host : option bool; cs_dis : EndPointSpec; cs_cdis : EndPointSpec;
  cs_site : option Z; cs_encoder : option (option text); cs_federation : option FederationSpec }.

(** ** What the gateway runs with *)
(* config.rs:158-163 *)
Inductive UdpMode := UniCast | BroadCast | MultiCast.
(* config.rs:385-389 *)
Inductive ConfigError := EGatewayMode | EUdpMode | EOptimizationMode.
(* config.rs:123-129 *)
Record UdpEndpoint (A : Type) := MkUdpEndpoint { ue_mode : UdpMode; ue_interface : A; ue_address : A; ue_ttl : Z; ue_block_own_socket : bool }.
Arguments MkUdpEndpoint {A}. Arguments ue_mode {A}. Arguments ue_interface {A}. Arguments ue_address {A}. Arguments ue_ttl {A}. Arguments ue_block_own_socket {A}.
(** the members of VariableParameters that a configuration can set (dis-rs/src/variable_parameters.rs); the others keep their defaults *)
Record Federation := MkFederation { fe_hbt : Heartbeats; fe_emitter : Z; fe_stationary : Z; fe_timeout_mplier : Z }.
(* config.rs:17-26; mode and optimization as in CdisCodec2.Options *)
Record Config (A : Type) := MkConfig {
  c_dis : UdpEndpoint A; c_cdis : UdpEndpoint A; c_partial : bool; c_site : Z; c_federation : Federation; c_mplier : Z; c_complete : bool; c_meta : MetaData }.
Arguments MkConfig {A}. Arguments c_dis {A}. Arguments c_cdis {A}. Arguments c_partial {A}. Arguments c_site {A}. Arguments c_federation {A}.
Arguments c_mplier {A}. Arguments c_complete {A}. Arguments c_meta {A}.
(** Ok, Err or a panic *)
Inductive Load (X : Type) := Loaded (x : X) | Invalid (e : ConfigError) | Crashed.
Arguments Loaded {X}. Arguments Invalid {X}. Arguments Crashed {X}.
Definition lbind {X Y} (a : Load X) (f : X -> Load Y) : Load Y := match a with Loaded x => f x | Invalid e => Invalid e | Crashed => Crashed end.
Definition unopt_or {X} (o : option X) (d : X) : X := match o with Some x => x | None => d end.

(** 1.0 as f32: variable_parameters.rs:178 *)
Definition f32_1 : Z := 1065353216.
(* config.rs:329-337 *)
Definition metadata_default : MetaData := MkMetaData (word "Unnamed configuration") (word "Unknown author") (word "Not versioned").

Section Loading.
Context {A : Type} (lower : Z -> text) (addr : text -> option A).
(** str::to_lowercase *)
Definition lower_char (c : Z) : text := if c <? 128 then [if (65 <=? c) && (c <=? 90) then c + 32 else c] else lower c.
Definition to_lowercase (t : text) : text := flat_map lower_char t.
(* config.rs:75-86 *)
Definition gateway_mode (t : text) : Load bool :=
  let l := to_lowercase t in
  if text_eqb l (word "full_update") then Loaded false else if text_eqb l (word "partial_update") then Loaded true else Invalid EGatewayMode.
(* config.rs:101-111 *)
Definition encoder_optimization (t : text) : Load bool :=
  let l := to_lowercase t in
  if text_eqb l (word "bandwidth") then Loaded false else if text_eqb l (word "completeness") then Loaded true else Invalid EOptimizationMode.
(* config.rs:165-177 *)
Definition udp_mode (t : text) : Load UdpMode :=
  let l := to_lowercase t in
  if text_eqb l (word "unicast") then Loaded UniCast else if text_eqb l (word "broadcast") then Loaded BroadCast
  else if text_eqb l (word "multicast") then Loaded MultiCast else Invalid EUdpMode.
(* config.rs:131-154: [interface] and [address] are both parsed from value.interface *)
Definition udp_endpoint (x : EndPointSpec) : Load (UdpEndpoint A) :=
  lbind (match ep_mode x with Some t => udp_mode t | None => Loaded UniCast end) (fun md =>
  let ttl := unopt_or (ep_ttl x) 1 in let block := unopt_or (ep_block_own_socket x) true in
  match addr (ep_interface x) with
  | None => Crashed
  | Some i => match addr (ep_interface x) with None => Crashed | Some a => Loaded (MkUdpEndpoint md i a ttl block) end
  end).
(* config.rs:187-252 *)
Definition set_federation_parameters (f : option FederationSpec) : Federation :=
  match f with
  | None => MkFederation default_heartbeats f32_5 f32_1 f32_2_4
  | Some s =>
      let d := default_heartbeats in
      MkFederation
        (MkHeartbeats (unopt_or (fs_cultural_feature s) (hb_cultural d)) (unopt_or (fs_environmental s) (hb_environmental d))
           (unopt_or (fs_expendable s) (hb_expendable d)) (unopt_or (fs_life_form s) (hb_life_form d)) (unopt_or (fs_munition s) (hb_munition d))
           (unopt_or (fs_radio s) (hb_radio d)) (unopt_or (fs_sensor s) (hb_sensor d)) (unopt_or (fs_supply s) (hb_supply d))
           (unopt_or (fs_air s) (hb_air d)) (unopt_or (fs_land s) (hb_land d)) (unopt_or (fs_space s) (hb_space d))
           (unopt_or (fs_subsurface s) (hb_subsurface d)) (unopt_or (fs_surface s) (hb_surface d)) (unopt_or (fs_designator s) (hb_designator d))
           (unopt_or (fs_ee s) (hb_ee d)) (unopt_or (fs_iff s) (hb_iff d)) (unopt_or (fs_transmitter s) (hb_transmitter d)))
        (unopt_or (fs_emitter s) f32_5) (unopt_or (fs_stationary s) f32_1) (unopt_or (fs_timeout_mplier s) f32_2_4)
  end.
(* config.rs:28-69 *)
Definition load (s : ConfigSpec) : Load (Config A) :=
  lbind (match cs_update_mode s with Some t => gateway_mode t | None => Loaded false end) (fun partial =>
  lbind (udp_endpoint (cs_dis s)) (fun dis =>
  lbind (udp_endpoint (cs_cdis s)) (fun cdis =>
  let site := unopt_or (cs_site s) 8080 in
  let mplier := match cs_federation s with Some f => unopt_or (fs_full_update_mplier f) f32_2_4 | None => f32_2_4 end in
  let federation := set_federation_parameters (cs_federation s) in
  lbind (match cs_encoder s with
         | Some e => match e with Some t => encoder_optimization t | None => Loaded true end
         | None => Loaded true
         end) (fun complete =>
  Loaded (MkConfig dis cdis partial site federation mplier complete (unopt_or (cs_metadata s) metadata_default)))))).
End Loading.

(** ** The codecs: cdis-gateway/src/codec.rs:22-39 (Encoder::new) and 108-118 (Decoder::new) *)
Definition encoder_options {A} (c : Config A) : Options := MkOptions (c_partial c) (c_complete c) (fe_hbt (c_federation c)) (c_mplier c).
Definition decoder_options {A} (c : Config A) : Options := MkOptions (c_partial c) (c_complete c) (fe_hbt (c_federation c)) (c_mplier c).

(** ** The sockets: main.rs:178-251 *)
Inductive SocketOp (A : Type) :=
  | Open (ipv4 : bool) | ReuseAddress | ReusePort | NonBlocking | SetBroadcast | SetTtl (n : Z) | Bind (a : A) | JoinV4 (group interface : A) | JoinV6 (group : A) (index : Z).
Arguments Open {A}. Arguments ReuseAddress {A}. Arguments ReusePort {A}. Arguments NonBlocking {A}. Arguments SetBroadcast {A}. Arguments SetTtl {A}.
Arguments Bind {A}. Arguments JoinV4 {A}. Arguments JoinV6 {A}.
(** do these calls in order; [must] calls end in a panic when they fail ([ok] says which calls succeed). Gives the calls made and whether the socket is ready. *)
Fixpoint do_ops {A} (ok : SocketOp A -> bool) (l : list (bool * SocketOp A)) : list (SocketOp A) * bool :=
  match l with
  | [] => ([], true)
  | (must, op) :: r => if must && negb (ok op) then ([op], false) else let (ops, done) := do_ops ok r in (op :: ops, done)
  end.
(** In the two multicast cases the code also asks whether [address] and [interface] have the version of [address]: [is_v4]. The last conversions
    (from socket2 to tokio) are left out. *)
Definition socket_plan {A} (is_v4 : A -> bool) (e : UdpEndpoint A) : list (bool * SocketOp A) :=
  let v4 := is_v4 (ue_address e) in
  [(true, Open v4); (false, ReuseAddress); (false, ReusePort); (false, NonBlocking)] ++
  match v4, ue_mode e with
  | true, UniCast => [(false, Bind (ue_interface e))]
  | true, BroadCast => [(false, SetBroadcast); (false, Bind (ue_interface e)); (false, SetTtl 1)]
  | true, MultiCast => if is_v4 (ue_interface e) then [(true, JoinV4 (ue_address e) (ue_interface e))] else []
  | false, UniCast => [(true, Bind (ue_interface e))]
  | false, BroadCast => [(true, SetBroadcast); (true, SetTtl 1); (true, Bind (ue_interface e))]
  | false, MultiCast => if is_v4 (ue_interface e) then [] else [(true, JoinV6 (ue_address e) 0)]
  end.
Definition create_udp_socket {A} (is_v4 : A -> bool) (ok : SocketOp A -> bool) (e : UdpEndpoint A) : list (SocketOp A) * bool := do_ops ok (socket_plan is_v4 e).
(* main.rs:144-152: writer_socket gets config.dis_socket.address or config.cdis_socket.address; main.rs:345: send_to(bytes, to_address) *)
Definition sends_to {A} (e : UdpEndpoint A) : A := ue_address e.
(* main.rs:283-287: a datagram from the socket's own address is dropped *)
Definition takes_from {A} (eqb : A -> A -> bool) (local from : A) : bool := negb (eqb local from).

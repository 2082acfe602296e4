(** * Vocabulary for the gateway's configuration: what a configuration file asks for

    Written without reference to how it is loaded: only the structures of GatewayConfig.v. *)
From Coq Require Import ZArith List Bool String.
From Verif Require Import Base DisCommon DisEntity DisPdu CdisCodec2 GatewayConfig.
Import ListNotations. Open Scope Z_scope.

(** what Unicode guarantees of characters outside ASCII: the lower case of a character outside ASCII has a character outside ASCII or is [k] (Kelvin sign) *)
Definition unicode_lower (lower : Z -> text) : Prop := forall c, 128 <= c -> Exists (fun x => 128 <= x \/ x = 107) (lower c).
(** the word [w] (lower case), in any mixture of upper and lower case *)
Definition spelled (w : string) (t : text) : Prop := Forall2 (fun c x => x = c \/ (97 <= c <= 122 /\ x = c - 32)) (word w) t.
Definition says (w : string) (o : option text) : Prop := exists t, o = Some t /\ spelled w t.
(** nothing, or one of these words *)
Definition one_of (ws : list string) (o : option text) : Prop := forall t, o = Some t -> Exists (fun w => spelled w t) ws.
Definition chosen {X} (o : option X) (default x : X) : Prop := match o with Some v => x = v | None => x = default end.

Definition good_update_mode (s : ConfigSpec) : Prop := one_of ["full_update"; "partial_update"]%string (cs_update_mode s).
Definition good_udp_mode (x : EndPointSpec) : Prop := one_of ["unicast"; "broadcast"; "multicast"]%string (ep_mode x).
Definition good_optimization (s : ConfigSpec) : Prop := forall o, cs_encoder s = Some o -> one_of ["bandwidth"; "completeness"]%string o.
Definition good_interface {A} (addr : text -> option A) (x : EndPointSpec) : Prop := exists a, addr (ep_interface x) = Some a.

(** an endpoint as the file describes it, except for its [uri] *)
Definition endpoint_as_asked {A} (addr : text -> option A) (x : EndPointSpec) (e : UdpEndpoint A) : Prop :=
  addr (ep_interface x) = Some (ue_interface e) /\
  (ue_mode e = BroadCast <-> says "broadcast" (ep_mode x)) /\ (ue_mode e = MultiCast <-> says "multicast" (ep_mode x)) /\
  chosen (ep_ttl x) 1 (ue_ttl e) /\ chosen (ep_block_own_socket x) true (ue_block_own_socket e).
(** the federation agreement: what the file gives for a member, if it has a federation table *)
Definition agreed (s : ConfigSpec) (member : FederationSpec -> option Z) : option Z := match cs_federation s with Some f => member f | None => None end.
(** which member governs the full updates of a PDU, by the entity's kind and domain (SISO-REF-010), and its default in seconds *)
Definition governing (b : PduBody) : (FederationSpec -> option Z) * Z :=
  match b with
  | BEntityState x =>
      (match et_kind (EntityState_entity_type x), et_domain (EntityState_entity_type x) with
       | 1, 1 => fs_land | 1, 3 => fs_surface | 1, 4 => fs_subsurface | 1, 5 => fs_space | 2, _ => fs_munition | 3, _ => fs_life_form
       | 4, _ => fs_environmental | 5, _ => fs_cultural_feature | 6, _ => fs_supply | 7, _ => fs_radio | 8, _ => fs_expendable | 9, _ => fs_sensor
       | _, _ => fs_air
       end, f32_5)
  | BElectromagneticEmission _ => (fs_ee, f32_5)
  | BDesignator _ => (fs_designator, f32_5)
  | BTransmitter _ => (fs_transmitter, f32_2)
  | BIff _ => (fs_iff, f32_10)
  | _ => (fun _ => None, 0)
  end.
(** the same file with other uris, times to live, blocking flags and federation members that do nothing *)
Definition other_uri (u : text) (ttl : option Z) (own : option bool) (x : EndPointSpec) : EndPointSpec := MkEndPointSpec u (ep_interface x) (ep_mode x) ttl own.
Definition other_unused (f : FederationSpec) (emitter stationary timeout : option Z) : FederationSpec :=
  MkFederationSpec (fs_full_update_mplier f) (fs_cultural_feature f) (fs_environmental f) (fs_expendable f) (fs_life_form f) (fs_munition f) (fs_radio f) (fs_sensor f)
    emitter (fs_supply f) (fs_air f) (fs_land f) (fs_space f) (fs_subsurface f) (fs_surface f) (fs_designator f) (fs_ee f) (fs_iff f) (fs_transmitter f) stationary timeout.
(** what a configuration makes the gateway do: the options of its codecs, the calls on its sockets, where it sends, and the port of its site *)
Definition behaviour {A} (is_v4 : A -> bool) (ok : SocketOp A -> bool) (c : Config A) :=
  (encoder_options c, decoder_options c, create_udp_socket is_v4 ok (c_dis c), create_udp_socket is_v4 ok (c_cdis c), sends_to (c_dis c), sends_to (c_cdis c), c_site c).

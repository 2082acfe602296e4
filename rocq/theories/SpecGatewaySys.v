(** * Vocabulary for the properties of the gateway as a whole *)
From Coq Require Import ZArith List Lia Bool.
From Verif Require Import Base CdisBase DisPdu CdisPdu CdisCodec1 CdisCodec2 CdisCodec3 Gateway SpecGateway GatewaySys.
Import ListNotations. Open Scope Z_scope.

(** [s] is reached by some schedule *)
Definition reachable (m : mode) (g : Geo) (o : Options) (capacity : list Z -> Z) (s : Sys) : Prop := exists l, sys_run m g o capacity sys_new l = Some s.
(** the codecs on their own: what they make of a sequence of datagrams, one after the other; [None] if they panic *)
Definition encoder_alone (m : mode) (g : Geo) (o : Options) (l : list ((nat -> Z) * list Z)) : option (list (list Z) * Encoder) :=
  run (fun e i => match encode_buffer m g o e i with Done _ r => Some r | Died _ => None end) encoder_new l.
Definition decoder_alone (m : mode) (g : Geo) (o : Options) (capacity : list Z -> Z) (l : list (unit * list Z)) : option (list (list Z) * DecState) :=
  run (fun st i => match decode_buffer m g o capacity st (snd i) with Done _ r => Some r | Died _ => None end) dec_state_new l.
(** nothing is under way in a flow *)
Definition flow_at_rest {C S} (f : Flow C S) : Prop := f_reader f = RWaiting /\ f_in f = [] /\ (exists st, f_codec f = CWaiting st) /\ f_out f = [].
Definition at_rest (s : Sys) : Prop := flow_at_rest (s_enc s) /\ flow_at_rest (s_dec s) /\ s_events s = [].
(** what the gateway does by itself, as opposed to what happens to it: datagrams and errors from the sockets, timers, the command to quit *)
Definition own_action {C} (a : Action C) : bool := match a with Pass | Take _ | Emit | Finish | Hand | Transmit | CloseWriter => true | _ => false end.
Definition by_itself (a : SysAction) : bool := match a with Enc a => own_action a | Dec a => own_action a | Count => true | _ => false end.
(** nothing was sent to stop the gateway and no socket failed *)
Definition undisturbed_action {C} (a : Action C) : bool := match a with ReadError | SendError | StopReader | StopCodec | StopWriter => false | _ => true end.
Definition undisturbed (a : SysAction) : bool := match a with Enc a => undisturbed_action a | Dec a => undisturbed_action a | Quit | StopStats => false | _ => true end.
Definition octets (l : list (list Z)) : Z := fold_right (fun d n => zlen d + n) 0 l.

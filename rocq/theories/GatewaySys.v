(** * The tasks of the gateway and the channels between them: cdis-gateway/src/main.rs

    Two flows, DIS to C-DIS and C-DIS to DIS, each a reader, a codec and a writer task joined by bounded channels, and one statistics task fed by a bounded
    channel of events. The tasks run in parallel: a schedule is any sequence of the atomic steps below. Not modelled: what the sockets do beyond delivering
    and taking datagrams, and the web site, which only sends the command to quit. *)
From Coq Require Import ZArith List Lia Bool.
From Verif Require Import Base CdisBase DisPdu CdisPdu CdisCodec1 CdisCodec2 CdisCodec3 Gateway.
Import ListNotations. Open Scope Z_scope.

(* main.rs:27-31 *)
Definition data_channel : Z := 20.
Definition event_channel : Z := 50.
Definition reader_buffer : nat := 1500.

(** the reader task, 253-311: waiting at the socket, waiting to hand on a datagram, or returned (with the datagram it could not hand on) *)
Inductive Reader := RWaiting | RHolding (d : list Z) | RReturned (undelivered : list (list Z)).
(** a codec task, 381-444: waiting for a datagram; translating one, with the events still to send and the result ([None]: it will panic);
    waiting to hand on the result; returned; panicked *)
Inductive Codec (S : Type) := CWaiting (st : S) | CWorking (evs : list Event) (res : option (list Z * S)) | CHolding (d : list Z) (st : S) | CReturned | CPanicked.
Arguments CWaiting {S}. Arguments CWorking {S}. Arguments CHolding {S}. Arguments CReturned {S}. Arguments CPanicked {S}.
(** a flow; the last three fields are observations, not state of the program: the datagrams read from the socket (not those from the gateway itself), those the codec
    took, with the time, and those written to the socket *)
Record Flow (C S : Type) := MkFlow {
  f_reader : Reader; f_in : list (list Z); f_codec : Codec S; f_out : list (list Z); f_writer : bool;
  f_seen : list (list Z); f_handled : list (C * list Z); f_sent : list (list Z) }.
Arguments MkFlow {C S}. Arguments f_reader {C S}. Arguments f_in {C S}. Arguments f_codec {C S}. Arguments f_out {C S}. Arguments f_writer {C S}.
Arguments f_seen {C S}. Arguments f_handled {C S}. Arguments f_sent {C S}.
Definition flow_new {C S} (st : S) : Flow C S := MkFlow RWaiting [] (CWaiting st) [] true [] [] [].
(** is the receiving end of a channel gone *)
Definition codec_gone {S} (c : Codec S) : bool := match c with CReturned | CPanicked => true | _ => false end.

Inductive Action (C : Type) :=
| Receive (own : bool) (d : list Z)   (* a datagram arrives, possibly from the gateway itself *)
| ReadError | Pass | Take (c : C) | Emit | Finish | Hand | Transmit | SendError | CloseWriter
| StopReader | StopCodec | StopWriter.
Arguments Receive {C}. Arguments ReadError {C}. Arguments Pass {C}. Arguments Take {C}. Arguments Emit {C}. Arguments Finish {C}. Arguments Hand {C}.
Arguments Transmit {C}. Arguments SendError {C}. Arguments CloseWriter {C}. Arguments StopReader {C}. Arguments StopCodec {C}. Arguments StopWriter {C}.

Definition set_reader {C S} (f : Flow C S) r : Flow C S := MkFlow r (f_in f) (f_codec f) (f_out f) (f_writer f) (f_seen f) (f_handled f) (f_sent f).
Definition set_codec {C S} (f : Flow C S) (c : Codec S) : Flow C S := MkFlow (f_reader f) (f_in f) c (f_out f) (f_writer f) (f_seen f) (f_handled f) (f_sent f).
Definition set_writer {C S} (f : Flow C S) w : Flow C S := MkFlow (f_reader f) (f_in f) (f_codec f) (f_out f) w (f_seen f) (f_handled f) (f_sent f).

(** One step of a flow; [room]: the event channel takes an event; [quit]: the command to quit was sent. The result: the flow and the events it sent.
    [None]: the step is not possible. *)
Definition flow_step {C S} (codec : C -> S -> list Z -> trace (list Z * S)) (room quit : bool) (f : Flow C S) (a : Action C) : option (Flow C S * list Event) :=
  match a with
  | Receive own d => match f_reader f with                                                    (* 280-290: datagrams of the gateway itself are ignored; 1500 octets are read *)
      | RWaiting => if own then Some (f, []) else
          let d := firstn reader_buffer d in Some (MkFlow (RHolding d) (f_in f) (f_codec f) (f_out f) (f_writer f) (f_seen f ++ [d]) (f_handled f) (f_sent f), [])
      | _ => None end
  | ReadError => match f_reader f with RWaiting => Some (set_reader f (RReturned []), []) | _ => None end    (* 301-304 *)
  | Pass => match f_reader f with                                                             (* 294-299 *)
      | RHolding d => if codec_gone (f_codec f) then Some (set_reader f (RReturned [d]), [])
                      else if zlen (f_in f) <? data_channel then Some (MkFlow RWaiting (f_in f ++ [d]) (f_codec f) (f_out f) (f_writer f) (f_seen f) (f_handled f) (f_sent f), []) else None
      | _ => None end
  | Take c => match f_codec f, f_in f with                                                    (* 400-402, 432-434 *)
      | CWaiting st, d :: t =>
          let w := match codec c st d with Done evs (o, st') => CWorking evs (Some (o, st')) | Died evs => CWorking evs None end in
          Some (MkFlow (f_reader f) t w (f_out f) (f_writer f) (f_seen f) (f_handled f ++ [(c, d)]) (f_sent f), [])
      | _, _ => None end
  | Emit => match f_codec f with                                                              (* try_send(..).expect(..) *)
      | CWorking (e :: evs) r => if room then Some (set_codec f (CWorking evs r), [e]) else Some (set_codec f CPanicked, [])
      | _ => None end
  | Finish => match f_codec f with
      | CWorking [] (Some (o, st)) => Some (set_codec f (CHolding o st), [])
      | CWorking [] None => Some (set_codec f CPanicked, [])
      | _ => None end
  | Hand => match f_codec f with                                                              (* 403, 435: send(..).await.expect(..) *)
      | CHolding o st => if negb (f_writer f) then Some (set_codec f CPanicked, [])
                         else if zlen (f_out f) <? data_channel then Some (MkFlow (f_reader f) (f_in f) (CWaiting st) (f_out f ++ [o]) (f_writer f) (f_seen f) (f_handled f) (f_sent f), []) else None
      | _ => None end
  | Transmit => match f_out f with                                                            (* 342-347 *)
      | d :: t => if f_writer f then Some (MkFlow (f_reader f) (f_in f) (f_codec f) t (f_writer f) (f_seen f) (f_handled f) (f_sent f ++ [d]), []) else None
      | [] => None end
  | SendError => match f_out f with d :: t => if f_writer f then Some (set_writer f false, []) else None | [] => None end    (* 348, 371 *)
  | CloseWriter => match f_out f with [] => if f_writer f && codec_gone (f_codec f) then Some (set_writer f false, []) else None | _ => None end    (* 350-352, 372 *)
  | StopReader => match f_reader f with RWaiting => if quit then Some (set_reader f (RReturned []), []) else None | _ => None end   (* 277, 305-308 *)
  | StopCodec => match f_codec f with CWaiting _ => if quit then Some (set_codec f CReturned, []) else None | _ => None end         (* 394-397, 426-429 *)
  | StopWriter => if quit && f_writer f then Some (set_writer f false, []) else None                                               (* 334, 373-376 *)
  end.

(** The gateway. [s_history] and [s_emitted] are observations: what the statistics task handled, and the events that were sent. *)
Record Sys := MkSys {
  s_enc : Flow (nat -> Z) Encoder; s_dec : Flow unit DecState; s_events : list Event; s_stats : GatewayStats; s_stats_up : bool; s_quit : bool;
  s_history : list StatInput; s_emitted : list Event }.
Definition sys_new : Sys := MkSys (flow_new encoder_new) (flow_new dec_state_new) [] stats_zero true false [] [].
Inductive SysAction := Enc (a : Action (nat -> Z)) | Dec (a : Action unit) | Count | Aggregate | Quit | StopStats.
Definition has_room (s : Sys) : bool := s_stats_up s && (zlen (s_events s) <? event_channel).
(** one step of the gateway; the codecs are those of Gateway.v *)
Definition sys_step (m : mode) (g : Geo) (o : Options) (capacity : list Z -> Z) (s : Sys) (a : SysAction) : option Sys :=
  match a with
  | Enc a => match flow_step (fun c st d => encode_buffer m g o st (c, d)) (has_room s) (s_quit s) (s_enc s) a with
      | Some (f, evs) => Some (MkSys f (s_dec s) (s_events s ++ evs) (s_stats s) (s_stats_up s) (s_quit s) (s_history s) (s_emitted s ++ evs))
      | None => None end
  | Dec a => match flow_step (fun _ st d => decode_buffer m g o capacity st d) (has_room s) (s_quit s) (s_dec s) a with
      | Some (f, evs) => Some (MkSys (s_enc s) f (s_events s ++ evs) (s_stats s) (s_stats_up s) (s_quit s) (s_history s) (s_emitted s ++ evs))
      | None => None end
  | Count => match s_events s with                                                            (* stats.rs:181-185 *)
      | e :: t => if s_stats_up s then Some (MkSys (s_enc s) (s_dec s) t (handle_event (s_stats s) e) true (s_quit s) (s_history s ++ [Ev e]) (s_emitted s)) else None
      | [] => None end
  | Aggregate => if s_stats_up s then Some (MkSys (s_enc s) (s_dec s) (s_events s) (aggregate_all (s_stats s)) true (s_quit s) (s_history s ++ [Tick]) (s_emitted s)) else None   (* stats.rs:168-173 *)
  | Quit => Some (MkSys (s_enc s) (s_dec s) (s_events s) (s_stats s) (s_stats_up s) true (s_history s) (s_emitted s))
  | StopStats => if s_quit s && s_stats_up s then Some (MkSys (s_enc s) (s_dec s) (s_events s) (s_stats s) false (s_quit s) (s_history s) (s_emitted s)) else None
  end.
Fixpoint sys_run (m : mode) (g : Geo) (o : Options) (capacity : list Z -> Z) (s : Sys) (l : list SysAction) : option Sys :=
  match l with [] => Some s | a :: t => match sys_step m g o capacity s a with Some s' => sys_run m g o capacity s' t | None => None end end.
(** the gateway ends when a task panics, main.rs:155-178 (tokio::try_join! fails) *)
Definition gateway_down (s : Sys) : bool := match f_codec (s_enc s), f_codec (s_dec s) with CPanicked, _ | _, CPanicked => true | _, _ => false end.

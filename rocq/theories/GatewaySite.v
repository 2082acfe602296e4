(** * What the gateway's web page shows: the statistics panels of cdis-gateway/src/site.rs and the channel that feeds them.

    Not modelled: HTTP, the static pages and the page with the configuration; how [ByteSize] and [{:.2}] print a number (the panels hold the numbers);
    the lines of a socket panel that repeat the configuration. A box of a panel is its caption and its number. *)
From Coq Require Import ZArith List Lia Bool SpecFloat String.
From Verif Require Import Base CdisBase DisPdu CdisPdu CdisCodec1 CdisCodec2 CdisCodec3 Gateway GatewaySys.
Import ListNotations. Open Scope Z_scope.

(** a box: caption and number *)
Definition box := (string * Z)%type.

(** ** Socket panel *)
(* site.rs:289-313, SocketStatsValues::from *)
Record SocketValues := MkSocketValues {
  sv_bytes_received : Z; sv_bytes_received_latest : Z; sv_bytes_sent : Z; sv_bytes_sent_latest : Z;
  sv_packets_received : Z; sv_packets_received_latest : Z; sv_packets_sent : Z; sv_packets_sent_latest : Z }.
Definition socket_values (s : SocketStats) : SocketValues :=
  MkSocketValues (bytes_received s) (bytes_received_latest_aggregate s) (bytes_sent s) (bytes_sent_latest_aggregate s)
    (packets_received s) (packets_received_latest_aggregate s) (packets_sent s) (packets_sent_latest_aggregate s).
(* templates/socket_stats.html:3-11 *)
Definition socket_html (v : SocketValues) : list box :=
  [("bytes received", sv_bytes_received v); ("bytes received/sec", sv_bytes_received_latest v);
   ("packets received", sv_packets_received v); ("packets received/sec", sv_packets_received_latest v);
   ("bytes sent", sv_bytes_sent v); ("bytes sent/sec", sv_bytes_sent_latest v);
   ("packets sent", sv_packets_sent v); ("packets sent/sec", sv_packets_sent_latest v)]%string.

(** ** Codec panel *)
(* site.rs:346-372 *)
Record CodecValues := MkCodecValues {
  cv_received : Z; cv_es : Z; cv_fire : Z; cv_detonation : Z; cv_collision : Z; cv_create : Z; cv_remove : Z; cv_start : Z; cv_stop : Z; cv_ack : Z;
  cv_action_request : Z; cv_action_response : Z; cv_data_query : Z; cv_set_data : Z; cv_data : Z; cv_event_report : Z; cv_comment : Z;
  cv_ee : Z; cv_designator : Z; cv_transmitter : Z; cv_signal : Z; cv_receiver : Z; cv_iff : Z;
  cv_rejected : Z; cv_unimplemented : Z; cv_rate : option spec_float }.
(* site.rs:376-378, count_for_pdu_type *)
Definition count_for (s : CodecStats) (ty : Z) : Z := match lookup_count ty (received_count s) with Some (n, _) => n | None => 0 end.
(* values().map(|val| val.0).sum() *)
Definition count_pdus (l : counts) : Z := fold_right (fun e a => fst (snd e) + a) 0 l.
(* u64::saturating_sub *)
Definition saturating_sub (a b : Z) : Z := if a <? b then 0 else a - b.
(* site.rs:374-416, CodecStatsValues::from; the rate is [None] where the code writes 0.0 for NaN *)
Definition codec_values (s : CodecStats) : CodecValues :=
  MkCodecValues (saturating_sub (count_pdus (received_count s)) (rejected_count s))
    (count_for s 1) (count_for s 2) (count_for s 3) (count_for s 4) (count_for s 11) (count_for s 12) (count_for s 13) (count_for s 14) (count_for s 15)
    (count_for s 16) (count_for s 17) (count_for s 18) (count_for s 19) (count_for s 20) (count_for s 21) (count_for s 22)
    (count_for s 23) (count_for s 24) (count_for s 25) (count_for s 26) (count_for s 27) (count_for s 28)
    (rejected_count s) (unimplemented_count s) (match compression_rate s with S754_nan => None | r => Some r end).
(* templates/codec_stats.html; the captions are the tooltips *)
Definition codec_html (v : CodecValues) : list box :=
  [("PDUs encoded", cv_received v); ("PDUs rejected", cv_rejected v);
   ("Entity State", cv_es v); ("Fire", cv_fire v); ("Detonation", cv_detonation v); ("Collision", cv_collision v); ("Create Entity", cv_create v);
   ("Remove Entity", cv_remove v); ("Start / Resume", cv_start v); ("Stop / Freeze", cv_stop v); ("Acknowledge", cv_ack v);
   ("Action Request", cv_action_request v); ("Action Response", cv_action_response v); ("Data Query", cv_data_query v); ("Set Data", cv_set_data v);
   ("Data", cv_data v); ("Event Report", cv_event_report v); ("Comment", cv_comment v); ("Electromagnetic Emission", cv_ee v);
   ("Designator", cv_designator v); ("Transmitter", cv_transmitter v); ("Signal", cv_signal v); ("Receiver", cv_receiver v);
   ("Identification Friend or Foe", cv_iff v); ("Unimplemented", cv_unimplemented v)]%string.

(** ** The panels of a page, and the messages that change them: stats.rs:9-15, site.rs:117-148 *)
Inductive SseStat := StatDis (s : SocketStats) | StatCdis (s : SocketStats) | StatEncoder (s : CodecStats) | StatDecoder (s : CodecStats).
Definition CodecPanel := (list box * option spec_float)%type.
Record Page := MkPage { pg_dis : option (list box); pg_cdis : option (list box); pg_encoder : option CodecPanel; pg_decoder : option CodecPanel }.
Definition page_new : Page := MkPage None None None None.
Definition codec_panel (s : CodecStats) : CodecPanel := let v := codec_values s in (codec_html v, cv_rate v).
Definition show (p : Page) (x : SseStat) : Page :=
  match x with
  | StatDis s => MkPage (Some (socket_html (socket_values s))) (pg_cdis p) (pg_encoder p) (pg_decoder p)
  | StatCdis s => MkPage (pg_dis p) (Some (socket_html (socket_values s))) (pg_encoder p) (pg_decoder p)
  | StatEncoder s => MkPage (pg_dis p) (pg_cdis p) (Some (codec_panel s)) (pg_decoder p)
  | StatDecoder s => MkPage (pg_dis p) (pg_cdis p) (pg_encoder p) (Some (codec_panel s))
  end.

(** ** The broadcast channel: a message that no longer fits pushes the oldest out; the receiver that missed it goes on with the oldest that is left (site.rs:118
    ignores the error). tokio rounds the capacity (main.rs:30: 50) up; here it is any number. *)
Definition keep_last (cap : nat) {A} (q : list A) : list A := skipn (List.length q - cap) q.
Definition publish (cap : nat) (q : list SseStat) (x : SseStat) : list SseStat := keep_last cap (q ++ [x]).
(** the messages of one tick of the emit timer, stats.rs:174-180 *)
Definition emission (s : GatewayStats) : list SseStat := [StatDis (gs_dis s); StatCdis (gs_cdis s); StatEncoder (gs_encoder s); StatDecoder (gs_decoder s)].

(** A page in a browser next to the running gateway *)
Record Site := MkSite { st_sys : Sys; st_queue : list SseStat; st_page : Page }.
Inductive SiteAction := Gateway (a : SysAction) | EmitStats | Show | Connect.
(** [Connect]: the page is loaded (again); a new receiver sees only what is sent from then on *)
Definition site_step (m : mode) (g : Geo) (o : Options) (capacity : list Z -> Z) (cap : nat) (s : Site) (a : SiteAction) : option Site :=
  match a with
  | Gateway a => match sys_step m g o capacity (st_sys s) a with Some y => Some (MkSite y (st_queue s) (st_page s)) | None => None end
  | EmitStats => if s_stats_up (st_sys s) then Some (MkSite (st_sys s) (fold_left (publish cap) (emission (s_stats (st_sys s))) (st_queue s)) (st_page s)) else None
  | Show => match st_queue s with x :: t => Some (MkSite (st_sys s) t (show (st_page s) x)) | [] => None end
  | Connect => Some (MkSite (st_sys s) [] page_new)
  end.
Fixpoint site_run (m : mode) (g : Geo) (o : Options) (capacity : list Z -> Z) (cap : nat) (s : Site) (l : list SiteAction) : option Site :=
  match l with [] => Some s | a :: t => match site_step m g o capacity cap s a with Some s' => site_run m g o capacity cap s' t | None => None end end.
Definition site_new : Site := MkSite sys_new [] page_new.

(** * Vocabulary for what the gateway's page shows (C61) *)
From Coq Require Import ZArith List Lia Bool SpecFloat String.
From Verif Require Import Base CdisBase DisHeader DisPdu DisPacket CdisRecords CdisPdu CdisCodec1 CdisCodec2 CdisCodec3 Gateway SpecGateway GatewaySys GatewaySite.
Import ListNotations. Open Scope Z_scope.

(** the PDU types of C-DIS, by the name and the number the DIS standard gives them *)
Definition type_names : list (string * Z) :=
  [("Entity State", 1); ("Fire", 2); ("Detonation", 3); ("Collision", 4); ("Create Entity", 11); ("Remove Entity", 12); ("Start / Resume", 13);
   ("Stop / Freeze", 14); ("Acknowledge", 15); ("Action Request", 16); ("Action Response", 17); ("Data Query", 18); ("Set Data", 19); ("Data", 20);
   ("Event Report", 21); ("Comment", 22); ("Electromagnetic Emission", 23); ("Designator", 24); ("Transmitter", 25); ("Signal", 26); ("Receiver", 27);
   ("Identification Friend or Foe", 28)]%string.
(** the PDU events of a history, whatever the type *)
Definition any_type (f : Event -> option (Z * Z)) (e : Event) : Z := match f e with Some _ => 1 | None => 0 end.
(** a codec panel after the history [h]; [rx], [rejected] and [unimplemented] pick the codec's events *)
Definition codec_boxes (rx : Event -> option (Z * Z)) (rejected unimplemented : Event -> Z) (h : list StatInput) : list box :=
  [("PDUs encoded", Z.max 0 (sum_over (any_type rx) h - sum_over rejected h)); ("PDUs rejected", sum_over rejected h)]%string ++
  map (fun x => (fst x, sum_over (count_type rx (snd x)) h)) type_names ++ [("Unimplemented", sum_over unimplemented h)]%string.
Definition encoder_boxes : list StatInput -> list box := codec_boxes enc_rx enc_rejected enc_unimplemented.
Definition decoder_boxes : list StatInput -> list box := codec_boxes dec_rx dec_rejected dec_unimplemented.
(** the last full interval between two ticks of the aggregate timer *)
Fixpoint last_interval (h : list StatInput) (cur done : list StatInput) : list StatInput :=
  match h with [] => done | Tick :: t => last_interval t [] cur | Ev e :: t => last_interval t (cur ++ [Ev e]) done end.
Definition latest (h : list StatInput) : list StatInput := last_interval h [] [].
(** a socket panel *)
Definition socket_boxes (inb ins outb outs : Event -> Z) (h : list StatInput) : list box :=
  [("bytes received", sum_over inb h); ("bytes received/sec", sum_over inb (latest h)); ("packets received", sum_over ins h); ("packets received/sec", sum_over ins (latest h));
   ("bytes sent", sum_over outb h); ("bytes sent/sec", sum_over outb (latest h)); ("packets sent", sum_over outs h); ("packets sent/sec", sum_over outs (latest h))]%string.
Definition dis_boxes : list StatInput -> list box := socket_boxes dis_in dis_ins dis_out dis_outs.
Definition cdis_boxes : list StatInput -> list box := socket_boxes cdis_in cdis_ins cdis_out cdis_outs.

(** the boxes and the compression rate (C37) of a codec after [h]; no rate is printed for NaN *)
Definition printable (r : spec_float) : option spec_float := match r with S754_nan => None | _ => Some r end.
Definition encoder_truth (h : list StatInput) : CodecPanel := (encoder_boxes h, printable (compression_rate (gs_encoder (stats_after h)))).
Definition decoder_truth (h : list StatInput) : CodecPanel := (decoder_boxes h, printable (compression_rate (gs_decoder (stats_after h)))).
(** the histories after which the four panels of a page were true; [None]: the panel is still empty *)
Record Moments := MkMoments { at_dis : option (list StatInput); at_cdis : option (list StatInput); at_encoder : option (list StatInput); at_decoder : option (list StatInput) }.
Definition page_at (k : Moments) : Page :=
  MkPage (option_map dis_boxes (at_dis k)) (option_map cdis_boxes (at_cdis k)) (option_map encoder_truth (at_encoder k)) (option_map decoder_truth (at_decoder k)).
Definition site_reachable (m : mode) (g : Geo) (o : Options) (capacity : list Z -> Z) (cap : nat) (s : Site) : Prop := exists l, site_run m g o capacity cap site_new l = Some s.
(** [h] is an earlier state of the history [h'] *)
Definition earlier (h h' : list StatInput) : Prop := exists more, h' = h ++ more.
(** every moment is an earlier state of the history [h] *)
Definition past (k : Moments) (h : list StatInput) : Prop :=
  forall x, at_dis k = Some x \/ at_cdis k = Some x \/ at_encoder k = Some x \/ at_decoder k = Some x -> earlier x h.
(** a panel goes on, never back *)
Definition onward1 (x y : option (list StatInput)) : Prop := forall h, x = Some h -> exists h', y = Some h' /\ earlier h h'.
Definition onward (k k' : Moments) : Prop :=
  onward1 (at_dis k) (at_dis k') /\ onward1 (at_cdis k) (at_cdis k') /\ onward1 (at_encoder k) (at_encoder k') /\ onward1 (at_decoder k) (at_decoder k').
(** the number in the box with a caption *)
Definition in_box (caption : string) (l : list box) : option Z := option_map snd (find (fun b => String.eqb (fst b) caption) l).
(** the PDUs in the datagrams read from a socket; a datagram that does not parse holds none *)
Definition dis_pdus (m : mode) (ds : list (list Z)) : list Pdu := flat_map (fun d => match parse m d with Parsed ps => ps | _ => [] end) ds.
Definition cdis_pdus (ds : list (list Z)) : list CPdu := flat_map (fun d => match cparse d with CParsed cs => cs | _ => [] end) ds.
Definition of_type (ty : Z) (p : Pdu) : bool := h_type (pdu_header p) =? ty.
(** all four panels were true after [h] *)
Definition every_moment (h : list StatInput) : Moments := MkMoments (Some h) (Some h) (Some h) (Some h).
(** a codec panel with given numbers: in the first box, rejected, of each type, unimplemented *)
Definition boxes_with (first rejected : Z) (of_ty : Z -> Z) (unimplemented : Z) : list box :=
  [("PDUs encoded", first); ("PDUs rejected", rejected)]%string ++ map (fun x => (fst x, of_ty (snd x))) type_names ++ [("Unimplemented", unimplemented)]%string.

(** IFF PDU body: model, parser, writer, body length.
    Sources: /repo/dis-rs/src/common/iff/{model,parser,writer}.rs. Conventions as in DisCommon.
    Simplification: the records made of single bits and small bit groups (change options, system status, information
    layers, mode 5 and mode S status words, ...) are kept as their wire word. Reading such a record keeps the bits its
    parser looks at ([Z.land] with the union of the masks in the cited lines) and, for the three parsers that test a
    constant instead of the input, sets the constant bit. Writing reproduces the word; subfields too large for their
    bit group are outside the model here (IffWords.v treats them). *)
From Verif Require Import Base DisCommon DisLists DisWarfare DisEntity DisRadio.

(** a word read with mask [mask], with the bits [force] always set *)
Definition bits_of (mask force v : Z) : Z := Z.lor (Z.land v mask) force.
Definition p_bits8 (mask force : Z) : bparser Z := (v <- be_u8;; pret (bits_of mask force v))%parse.
Definition p_bits16 (mask force : Z) : bparser Z := (v <- be_u16;; pret (bits_of mask force v))%parse.
Lemma RT_bits8 {R} (w : W R) mask force v r L : RT w be_u8 v r L -> bits_of mask force v = v -> RT w (p_bits8 mask force) v r L.
Proof. intros (b & H1 & H2 & H3) E. exists b. split; [exact H1|split; [exact H2|]]. intros rest. unfold p_bits8, pbind. rewrite H3. unfold pret. now rewrite E. Qed.
Lemma RT_bits16 {R} (w : W R) mask force v r L : RT w be_u16 v r L -> bits_of mask force v = v -> RT w (p_bits16 mask force) v r L.
Proof. intros (b & H1 & H2 & H3) E. exists b. split; [exact H1|split; [exact H2|]]. intros rest. unfold p_bits16, pbind. rewrite H3. unfold pret. now rewrite E. Qed.
Lemma Ext_bits8 a b : Ext (p_bits8 a b). Proof. unfold p_bits8; ext. Qed.
Lemma Ext_bits16 a b : Ext (p_bits16 a b). Proof. unfold p_bits16; ext. Qed.
Global Hint Resolve Ext_bits8 Ext_bits16 : ext.
Lemma Safe_bits8 a b : Safe (p_bits8 a b). Proof. unfold p_bits8; safe. Qed.
Lemma Safe_bits16 a b : Safe (p_bits16 a b). Proof. unfold p_bits16; safe. Qed.
Global Hint Resolve Safe_bits8 Safe_bits16 : safe.

(** * Records *)
(* model.rs:539-543 *)
Record LayerHeader := MkLayerHeader { lh_number : Z; lh_specific : Z; lh_length : Z }.
(* model.rs:521-529, 557-561 *)
Record IffParameter := MkIffParameter { ip_erp : Z; ip_frequency : Z; ip_pgrf : Z; ip_pulse_width : Z; ip_burst : Z; ip_modes : Z; ip_s1 : Z; ip_s2 : Z; ip_s3 : Z }.
(* model.rs:419-422 *)
Record IffDataRecord := MkIffDataRecord { idr_type : Z; idr_fields : list Z }.
(* model.rs:575-580 *)
Record SystemId := MkSystemId { si_type : Z; si_name : Z; si_mode : Z; si_change : Z }.
(* model.rs:371-382 *)
Record FundOpData := MkFundOpData { fo_status : Z; fo_field1 : Z; fo_layers : Z; fo_field2 : Z;
  fo_p1 : Z; fo_p2 : Z; fo_p3 : Z; fo_p4 : Z; fo_p5 : Z; fo_p6 : Z }.
(* model.rs:82-88 *)
Record IffLayer2 := MkIffLayer2 { l2_header : LayerHeader; l2_beam : BeamData; l2_op1 : Z; l2_op2 : Z; l2_params : list IffParameter }.
(* model.rs:747-751 *)
Record Mode5Interrogator := MkM5I { m5i_status : Z; m5i_formats : Z; m5i_entity : EntityId }.
(* model.rs:987-996 *)
Record Mode5Transponder := MkM5T { m5t_status : Z; m5t_pin : Z; m5t_formats : Z; m5t_mode1 : Z; m5t_origin : Z; m5t_supplemental : Z; m5t_nav : Z; m5t_merit : Z }.
(* model.rs:161-164 *)
Inductive Mode5BasicData := M5Interrogator (x : Mode5Interrogator) | M5Transponder (x : Mode5Transponder).
(* model.rs:124-129 *)
Record IffLayer3 := MkIffLayer3 { l3_header : LayerHeader; l3_sim : SimulationAddress; l3_basic : Mode5BasicData; l3_records : list IffDataRecord }.
(* model.rs:1238-1241 *)
Record ModeSInterrogator := MkMSI { msi_status : Z; msi_levels : Z }.
(* model.rs:1367-1377 *)
Record ModeSTransponder := MkMST { mst_status : Z; mst_levels : Z; mst_domain : Z; mst_id : list Z; mst_address : Z; mst_idtype : Z;
  mst_dap : Z; mst_altitude : Z; mst_capability : Z }.
(* model.rs:221-224 *)
Inductive ModeSBasicData := MSInterrogator (x : ModeSInterrogator) | MSTransponder (x : ModeSTransponder).
(* model.rs:184-189 *)
Record IffLayer4 := MkIffLayer4 { l4_header : LayerHeader; l4_sim : SimulationAddress; l4_basic : ModeSBasicData; l4_records : list IffDataRecord }.
(* model.rs:244-250 *)
Record IffLayer5 := MkIffLayer5 { l5_header : LayerHeader; l5_sim : SimulationAddress; l5_layers : Z; l5_category : Z; l5_records : list IffDataRecord }.
(* model.rs:16-29 *)
Record Iff := MkIff {
  Iff_emitting_entity_id : EntityId; Iff_event_id : EventId; Iff_antenna : VectorF32; Iff_system_id : SystemId;
  Iff_designator : Z; Iff_specific : Z; Iff_data : FundOpData;
  Iff_layer_2 : option IffLayer2; Iff_layer_3 : option IffLayer3; Iff_layer_4 : option IffLayer4; Iff_layer_5 : option IffLayer5 }.

(** masks: the bits each record's parser reads *)
Definition m_layers := 127.       (* model.rs:483-503 *)
Definition m_m5i_status := 247.   (* model.rs:783-803: bits 0-2, 3, 5, 6, 7 *)
Definition m_mode1 := 65527.      (* model.rs:692-723: all but bit 12 *)
Definition m_supplemental := 248. (* model.rs:1067-1080 *)
Definition m_m5t_status := 65527. (* model.rs:1120-1159: all but bit 12 *)
Definition m_msi_status := 248.   (* model.rs:1272-1287; bit 5 is forced: 4 *)
Definition m_levels := 120.       (* model.rs:1323-1339; bit 5 is forced: 4 *)
Definition m_mst_status := 65479. (* model.rs:1415-1455: all but bits 10-12 *)
Definition m_dap := 247.          (* model.rs:616-638; bit 4 is forced: 8 *)
Definition m_altitude := 65520.   (* model.rs:1212-1225 *)

Definition wf_LayerHeader h := u8 (lh_number h) /\ u8 (lh_specific h) /\ u16 (lh_length h).
Definition wf_IffParameter p := u32 (ip_erp p) /\ u32 (ip_frequency p) /\ u32 (ip_pgrf p) /\ u32 (ip_pulse_width p) /\ u32 (ip_burst p) /\
  u8 (ip_modes p) /\ u8 (ip_s1 p) /\ u8 (ip_s2 p) /\ u8 (ip_s3 p).
Definition wf_IffDataRecord r := u32 (idr_type r) /\ bytes (idr_fields r).
Definition wf_SystemId s := u16 (si_type s) /\ u16 (si_name s) /\ u8 (si_mode s) /\ u8 (si_change s).
Definition wf_FundOpData d := u8 (fo_status d) /\ u8 (fo_field1 d) /\ u8 (fo_layers d) /\ u8 (fo_field2 d) /\
  u16 (fo_p1 d) /\ u16 (fo_p2 d) /\ u16 (fo_p3 d) /\ u16 (fo_p4 d) /\ u16 (fo_p5 d) /\ u16 (fo_p6 d).
Definition wf_IffLayer2 l := wf_LayerHeader (l2_header l) /\ wf_BeamData (l2_beam l) /\ u8 (l2_op1 l) /\ u8 (l2_op2 l) /\ Forall wf_IffParameter (l2_params l).
Definition wf_M5I x := u8 (m5i_status x) /\ u32 (m5i_formats x) /\ wf_EntityId (m5i_entity x).
Definition wf_M5T x := u16 (m5t_status x) /\ u16 (m5t_pin x) /\ u32 (m5t_formats x) /\ u16 (m5t_mode1 x) /\ u16 (m5t_origin x) /\
  u8 (m5t_supplemental x) /\ u8 (m5t_nav x) /\ u8 (m5t_merit x).
Definition wf_Mode5BasicData b := match b with M5Interrogator x => wf_M5I x | M5Transponder x => wf_M5T x end.
Definition wf_IffLayer3 l := wf_LayerHeader (l3_header l) /\ wf_SimulationAddress (l3_sim l) /\ wf_Mode5BasicData (l3_basic l) /\ Forall wf_IffDataRecord (l3_records l).
Definition wf_MSI x := u8 (msi_status x) /\ u8 (msi_levels x).
Definition wf_MST x := u16 (mst_status x) /\ u8 (mst_levels x) /\ u8 (mst_domain x) /\ bytes (mst_id x) /\ u32 (mst_address x) /\ u8 (mst_idtype x) /\
  u8 (mst_dap x) /\ u16 (mst_altitude x) /\ u8 (mst_capability x).
Definition wf_ModeSBasicData b := match b with MSInterrogator x => wf_MSI x | MSTransponder x => wf_MST x end.
Definition wf_IffLayer4 l := wf_LayerHeader (l4_header l) /\ wf_SimulationAddress (l4_sim l) /\ wf_ModeSBasicData (l4_basic l) /\ Forall wf_IffDataRecord (l4_records l).
Definition wf_IffLayer5 l := wf_LayerHeader (l5_header l) /\ wf_SimulationAddress (l5_sim l) /\ u8 (l5_layers l) /\ u8 (l5_category l) /\ Forall wf_IffDataRecord (l5_records l).
Definition wf_Iff x := wf_EntityId (Iff_emitting_entity_id x) /\ wf_EventId (Iff_event_id x) /\ wf_VectorF32 (Iff_antenna x) /\
  wf_SystemId (Iff_system_id x) /\ u8 (Iff_designator x) /\ u8 (Iff_specific x) /\ wf_FundOpData (Iff_data x) /\
  wf_option wf_IffLayer2 (Iff_layer_2 x) /\ wf_option wf_IffLayer3 (Iff_layer_3 x) /\ wf_option wf_IffLayer4 (Iff_layer_4 x) /\ wf_option wf_IffLayer5 (Iff_layer_5 x).

(** * Parsers *)
(* parser.rs:241-252 *)
Definition p_layer_header : bparser LayerHeader := (n <- be_u8;; s <- be_u8;; l <- be_u16;; pret (MkLayerHeader n s l))%parse.
(* parser.rs:218-239, 254-265 *)
Definition p_iff_parameter : bparser IffParameter :=
  (a <- be_f32;; b <- be_f32;; c <- be_f32;; d <- be_f32;; e <- be_f32;; f <- be_u8;; x <- be_u8;; y <- be_u8;; z <- be_u8;;
   pret (MkIffParameter a b c d e f x y z))%parse.
(* parser.rs:189-199; [saturating_sub] *)
Definition p_iff_data_record : bparser IffDataRecord :=
  (t <- be_u32;; n <- be_u16;; f <- take (Z.max 0 (n - 6));; pret (MkIffDataRecord t f))%parse.
(* parser.rs:201-210 *)
Definition p_iff_data_specification : bparser (list IffDataRecord) := (n <- be_u16;; l <- count p_iff_data_record n;; pret l)%parse.
(* parser.rs:267-283, 158-162 *)
Definition p_system_id : bparser SystemId := (t <- be_u16;; n <- be_u16;; m <- be_u8;; c <- be_u8;; pret (MkSystemId t n m c))%parse.
(* parser.rs:164-187, 313-317, 212-216 *)
Definition p_fund_op_data : bparser FundOpData :=
  (s <- be_u8;; a <- be_u8;; l <- p_bits8 m_layers 0;; b <- be_u8;; p1 <- be_u16;; p2 <- be_u16;; p3 <- be_u16;; p4 <- be_u16;; p5 <- be_u16;; p6 <- be_u16;;
   pret (MkFundOpData s a l b p1 p2 p3 p4 p5 p6))%parse.
(* parser.rs:59-76 *)
Definition p_iff_layer_2 : bparser IffLayer2 :=
  (h <- p_layer_header;; b <- p_beam_data;; o1 <- be_u8;; o2 <- be_u8;; n <- be_u16;; l <- count p_iff_parameter n;; pret (MkIffLayer2 h b o1 o2 l))%parse.
(* parser.rs:349-362 *)
Definition p_mode5_interrogator : bparser Mode5Interrogator :=
  (s <- p_bits8 m_m5i_status 0;; _ <- be_u8;; _ <- be_u16;; f <- be_u32;; e <- p_entity_id;; _ <- be_u16;; pret (MkM5I s f e))%parse.
(* parser.rs:376-398 *)
Definition p_mode5_transponder : bparser Mode5Transponder :=
  (s <- p_bits16 m_m5t_status 0;; p <- be_u16;; f <- be_u32;; e <- p_bits16 m_mode1 0;; o <- be_u16;; d <- p_bits8 m_supplemental 0;; n <- be_u8;;
   g <- be_u8;; _ <- be_u8;; pret (MkM5T s p f e o d n g))%parse.
(** system types, generated from SISO-REF-010 UID 82: 1 Mark X/XII/ATCRBS transponder, 2 Mark X/XII/ATCRBS interrogator,
    3 Soviet transponder, 4 Soviet interrogator, 5 RRB transponder, 6 Mark XIIA interrogator, 7 Mode 5 interrogator,
    8 Mode S interrogator, 9 Mark XIIA transponder, 10 Mode 5 transponder, 11 Mode S transponder, 12-14 combined *)
Definition is_transponder (t : Z) : bool := (t =? 1) || (t =? 3) || (t =? 5) || (t =? 9) || (t =? 10) || (t =? 11).
Definition is_interrogator (t : Z) : bool := (t =? 2) || (t =? 4) || (t =? 6) || (t =? 7) || (t =? 8).
(** defaults, model.rs:987, 1367 ([derive(Default)]) *)
Definition default_m5t := MkM5T 0 0 0 0 0 0 0 0.
Definition default_mst := MkMST 0 0 0 [] 0 0 0 0 0.
(* parser.rs:320-347, with the default of 86-87 *)
Definition p_mode5_basic_data (t : Z) : bparser Mode5BasicData :=
  if is_transponder t then (x <- p_mode5_transponder;; pret (M5Transponder x))%parse
  else if is_interrogator t then (x <- p_mode5_interrogator;; pret (M5Interrogator x))%parse
  else pret (M5Transponder default_m5t).
(* parser.rs:78-95 *)
Definition p_iff_layer_3 (t : Z) : bparser IffLayer3 :=
  (h <- p_layer_header;; s <- p_simulation_address;; b <- p_mode5_basic_data t;; _ <- be_u16;; r <- p_iff_data_specification;; pret (MkIffLayer3 h s b r))%parse.
(* parser.rs:423-437 *)
Definition p_modes_interrogator : bparser ModeSInterrogator :=
  (s <- p_bits8 m_msi_status 4;; _ <- be_u8;; l <- p_bits8 m_levels 4;; _ <- take 21;; pret (MkMSI s l))%parse.
(* parser.rs:457-461; the String handling is that of the markings (see DisEntity) *)
Definition p_ascii8 : bparser (list Z) := (i <- take 8;; pret (sanitize_marking i))%parse.
(* parser.rs:451-482 *)
Definition p_modes_transponder : bparser ModeSTransponder :=
  (s <- p_bits16 m_mst_status 0;; l <- p_bits8 m_levels 4;; d <- be_u8;; i <- p_ascii8;; a <- be_u32;; t <- be_u8;; p <- p_bits8 m_dap 8;;
   h <- p_bits16 m_altitude 0;; c <- be_u8;; pret (MkMST s l d i a t p h c))%parse.
(* parser.rs:394-421, with the default of 105-106 *)
Definition p_modes_basic_data (t : Z) : bparser ModeSBasicData :=
  if is_transponder t then (x <- p_modes_transponder;; pret (MSTransponder x))%parse
  else if is_interrogator t then (x <- p_modes_interrogator;; pret (MSInterrogator x))%parse
  else pret (MSTransponder default_mst).
(* parser.rs:97-114 *)
Definition p_iff_layer_4 (t : Z) : bparser IffLayer4 :=
  (h <- p_layer_header;; s <- p_simulation_address;; b <- p_modes_basic_data t;; _ <- be_u16;; r <- p_iff_data_specification;; pret (MkIffLayer4 h s b r))%parse.
(* parser.rs:116-134 *)
Definition p_iff_layer_5 : bparser IffLayer5 :=
  (h <- p_layer_header;; s <- p_simulation_address;; _ <- be_u16;; l <- p_bits8 m_layers 0;; c <- be_u8;; _ <- be_u16;; r <- p_iff_data_specification;;
   pret (MkIffLayer5 h s l c r))%parse.
(** [if present { parser } else { None }], parser.rs:22-41 *)
Definition p_option {A} (b : bool) (p : bparser A) : bparser (option A) := if b then (a <- p;; pret (Some a))%parse else pret None.
(* parser.rs:12-57; layers 2 to 5 are the bits 5, 4, 3, 2 of the information layers *)
Definition p_iff_body : bparser Iff :=
  (i <- p_entity_id;; e <- p_event_id;; a <- p_vec3_f32;; s <- p_system_id;; d <- be_u8;; sp <- be_u8;; f <- p_fund_op_data;;
   l2 <- p_option (Z.testbit (fo_layers f) 5) p_iff_layer_2;;
   l3 <- p_option (Z.testbit (fo_layers f) 4) (p_iff_layer_3 (si_type s));;
   l4 <- p_option (Z.testbit (fo_layers f) 3) (p_iff_layer_4 (si_type s));;
   l5 <- p_option (Z.testbit (fo_layers f) 2) p_iff_layer_5;;
   pret (MkIff i e a s d sp f l2 l3 l4 l5))%parse.

(** * Writers *)
(* writer.rs:212-220 *)
Definition w_layer_header (h : LayerHeader) : W Z := (put_u8 (lh_number h);; put_u8 (lh_specific h);; put_u16 (lh_length h);; wret 4)%write.
(* writer.rs:198-210, 222-230 *)
Definition w_iff_parameter (p : IffParameter) : W Z :=
  (put_f32 (ip_erp p);; put_f32 (ip_frequency p);; put_f32 (ip_pgrf p);; put_f32 (ip_pulse_width p);; put_f32 (ip_burst p);; put_u8 (ip_modes p);;
   put_u8 (ip_s1 p);; put_u8 (ip_s2 p);; put_u8 (ip_s3 p);; wret 24)%write.
(* writer.rs:164-178 *)
Definition w_iff_data_record (r : IffDataRecord) : W Z :=
  (pl <- w_padded (6 + zlen (idr_fields r)) 4;;
   put_u32 (idr_type r);; put_u16 (pl_record pl mod 65536);; put_slice (idr_fields r);; put_bytes 0 (pl_padding pl);;
   wret (pl_record pl mod 65536))%write.
(* writer.rs:180-187 *)
Definition w_iff_data_specification (m : mode) (l : list IffDataRecord) : W Z :=
  (put_u16 (zlen l mod 65536);; n <- wmap_sum m w_iff_data_record l;; add16 m 2 n)%write.
(* writer.rs:232-241, 100-107 *)
Definition w_system_id (s : SystemId) : W Z := (put_u16 (si_type s);; put_u16 (si_name s);; put_u8 (si_mode s);; put_u8 (si_change s);; wret 6)%write.
(* writer.rs:109-124, 514-521, 189-196 *)
Definition w_fund_op_data (d : FundOpData) : W Z :=
  (put_u8 (fo_status d);; put_u8 (fo_field1 d);; put_u8 (fo_layers d);; put_u8 (fo_field2 d);; put_u16 (fo_p1 d);; put_u16 (fo_p2 d);;
   put_u16 (fo_p3 d);; put_u16 (fo_p4 d);; put_u16 (fo_p5 d);; put_u16 (fo_p6 d);; wret 16)%write.
(* writer.rs:40-54 *)
Definition w_iff_layer_2 (m : mode) (l : IffLayer2) : W Z :=
  (_ <- w_layer_header (l2_header l);; _ <- w_beam_data (l2_beam l);; put_u8 (l2_op1 l);; put_u8 (l2_op2 l);; put_u16 (zlen (l2_params l) mod 65536);;
   n <- wmap_sum m w_iff_parameter (l2_params l);; add16 m 28 n)%write.
(* writer.rs:287-298 *)
Definition w_mode5_interrogator (x : Mode5Interrogator) : W Z :=
  (put_u8 (m5i_status x);; put_u8 0;; put_u16 0;; put_u32 (m5i_formats x);; _ <- w_entity_id (m5i_entity x);; put_u16 0;; wret 16)%write.
(* writer.rs:318-332; 2 + 4 + 2 + 1 + 7 *)
Definition w_mode5_transponder (x : Mode5Transponder) : W Z :=
  (put_u16 (m5t_status x);; put_u16 (m5t_pin x);; put_u32 (m5t_formats x);; put_u16 (m5t_mode1 x);; put_u16 (m5t_origin x);; put_u8 (m5t_supplemental x);;
   put_u8 (m5t_nav x);; put_u8 (m5t_merit x);; put_u8 0;; wret 16)%write.
Definition w_mode5_basic_data (b : Mode5BasicData) : W Z := match b with M5Interrogator x => w_mode5_interrogator x | M5Transponder x => w_mode5_transponder x end.
(* writer.rs:56-69 *)
Definition w_iff_layer_3 (m : mode) (l : IffLayer3) : W Z :=
  (_ <- w_layer_header (l3_header l);; _ <- w_simulation_address (l3_sim l);; b <- w_mode5_basic_data (l3_basic l);; put_u16 0;;
   n <- w_iff_data_specification m (l3_records l);; add16 m (10 + b) n)%write.
(* writer.rs:396-406 *)
Definition w_modes_interrogator (x : ModeSInterrogator) : W Z :=
  (put_u8 (msi_status x);; put_u8 0;; put_u8 (msi_levels x);; put_bytes 0 21;; wret 24)%write.
(* writer.rs:461-471 put_ascii_string_with_length, with the fallback of 447-448; [value.is_ascii()] is every octet below 128 *)
Definition w_ascii8 (s : list Z) : W unit :=
  if (8 <? zlen s) || negb (forallb (fun c => c <? 128) s) then put_bytes 0 8
  else (put_slice s;; put_bytes 0 (8 - zlen s))%write.
(* writer.rs:440-459: 21 octets are written, 24 is returned *)
Definition w_modes_transponder (x : ModeSTransponder) : W Z :=
  (put_u16 (mst_status x);; put_u8 (mst_levels x);; put_u8 (mst_domain x);; w_ascii8 (mst_id x);; put_u32 (mst_address x);; put_u8 (mst_idtype x);;
   put_u8 (mst_dap x);; put_u16 (mst_altitude x);; put_u8 (mst_capability x);; wret 24)%write.
Definition w_modes_basic_data (b : ModeSBasicData) : W Z := match b with MSInterrogator x => w_modes_interrogator x | MSTransponder x => w_modes_transponder x end.
(* writer.rs:71-84 *)
Definition w_iff_layer_4 (m : mode) (l : IffLayer4) : W Z :=
  (_ <- w_layer_header (l4_header l);; _ <- w_simulation_address (l4_sim l);; b <- w_modes_basic_data (l4_basic l);; put_u16 0;;
   n <- w_iff_data_specification m (l4_records l);; add16 m (10 + b) n)%write.
(* writer.rs:86-98 *)
Definition w_iff_layer_5 (m : mode) (l : IffLayer5) : W Z :=
  (_ <- w_layer_header (l5_header l);; _ <- w_simulation_address (l5_sim l);; put_u16 0;; put_u8 (l5_layers l);; put_u8 (l5_category l);; put_u16 0;;
   n <- w_iff_data_specification m (l5_records l);; add16 m 14 n)%write.
Definition w_option {A} (w : A -> W Z) (o : option A) : W Z := match o with Some a => w a | None => wret 0 end.
(* writer.rs:8-38 *)
Definition w_iff (m : mode) (x : Iff) : W Z :=
  (_ <- w_entity_id (Iff_emitting_entity_id x);; _ <- w_event_id (Iff_event_id x);; _ <- w_vector_f32 (Iff_antenna x);; _ <- w_system_id (Iff_system_id x);;
   put_u8 (Iff_designator x);; put_u8 (Iff_specific x);; _ <- w_fund_op_data (Iff_data x);;
   n2 <- w_option (w_iff_layer_2 m) (Iff_layer_2 x);; n3 <- w_option (w_iff_layer_3 m) (Iff_layer_3 x);;
   n4 <- w_option (w_iff_layer_4 m) (Iff_layer_4 x);; n5 <- w_option (w_iff_layer_5 m) (Iff_layer_5 x);;
   r2 <- add16 m 48 n2;; r3 <- add16 m r2 n3;; r4 <- add16 m r3 n4;; add16 m r4 n5)%write.

(** * Body length *)
(* model.rs:433-438, 456-462 *)
Definition len_iff_records (m : mode) (l : list IffDataRecord) : W Z :=
  (n <- wmap_sum m (fun r => (pl <- w_padded (6 + zlen (idr_fields r)) 4;; wret (pl_record pl mod 65536))%write) l;; add16 m 2 n)%write.
(* model.rs:107-112 *)
Definition len_layer_2 (m : mode) (l : IffLayer2) : W Z := (n <- mul16 m (zlen (l2_params l) mod 65536) 24;; add16 m 28 n)%write.
(* model.rs:147-150 *)
Definition len_layer_3 (m : mode) (l : IffLayer3) : W Z := (n <- len_iff_records m (l3_records l);; add16 m 26 n)%write.
(* model.rs:207-210 *)
Definition len_layer_4 (m : mode) (l : IffLayer4) : W Z := (n <- len_iff_records m (l4_records l);; add16 m 34 n)%write.
(* model.rs:269-272 *)
Definition len_layer_5 (m : mode) (l : IffLayer5) : W Z := (n <- len_iff_records m (l5_records l);; add16 m 14 n)%write.
(* model.rs:45-65 with IFF_PDU_LAYER_1_DATA_LENGTH_OCTETS = 60 *)
Definition len_iff (m : mode) (x : Iff) : W Z :=
  (n2 <- w_option (len_layer_2 m) (Iff_layer_2 x);; r2 <- add16 m 60 n2;; n3 <- w_option (len_layer_3 m) (Iff_layer_3 x);; r3 <- add16 m r2 n3;;
   n4 <- w_option (len_layer_4 m) (Iff_layer_4 x);; r4 <- add16 m r3 n4;; n5 <- w_option (len_layer_5 m) (Iff_layer_5 x);; add16 m r4 n5)%write.

(** * Specification: octets on the wire, and what the format can carry *)
Definition size_idr (r : IffDataRecord) : Z := 6 + zlen (idr_fields r) + pad_to (6 + zlen (idr_fields r)) 4.
Definition size_idrs (l : list IffDataRecord) : Z := 2 + zsum (map size_idr l).
Definition opt_size {A} (f : A -> Z) (o : option A) : Z := match o with Some a => f a | None => 0 end.
Definition size_l2 (l : IffLayer2) : Z := 28 + 24 * zlen (l2_params l).
Definition size_l3 (l : IffLayer3) : Z := 26 + size_idrs (l3_records l).
Definition modes_deficit (b : ModeSBasicData) : Z := match b with MSInterrogator _ => 0 | MSTransponder _ => 3 end.
Definition size_l4 (l : IffLayer4) : Z := 34 - modes_deficit (l4_basic l) + size_idrs (l4_records l).
Definition size_l5 (l : IffLayer5) : Z := 14 + size_idrs (l5_records l).
Definition size_iff (x : Iff) : Z := 48 + opt_size size_l2 (Iff_layer_2 x) + opt_size size_l3 (Iff_layer_3 x) + opt_size size_l4 (Iff_layer_4 x) + opt_size size_l5 (Iff_layer_5 x).
(** the transponder's missing octets *)
Definition deficit_iff (x : Iff) : Z := opt_size (fun l => modes_deficit (l4_basic l)) (Iff_layer_4 x).
(** data records need no padding, small-bit-field words only use defined bits, the bits that the parser forces are set *)
Definition idr_ok (r : IffDataRecord) : Prop := (6 + zlen (idr_fields r)) mod 4 = 0.
Definition bits_ok (mask force v : Z) : Prop := bits_of mask force v = v.
Definition m5_ok (t : Z) (b : Mode5BasicData) : Prop := match b with
  | M5Interrogator x => is_interrogator t = true /\ bits_ok m_m5i_status 0 (m5i_status x)
  | M5Transponder x => is_transponder t = true /\ bits_ok m_m5t_status 0 (m5t_status x) /\ bits_ok m_mode1 0 (m5t_mode1 x) /\ bits_ok m_supplemental 0 (m5t_supplemental x) end.
Definition ms_ok (t : Z) (b : ModeSBasicData) : Prop := match b with
  | MSInterrogator x => is_interrogator t = true /\ bits_ok m_msi_status 4 (msi_status x) /\ bits_ok m_levels 4 (msi_levels x)
  | MSTransponder x => is_transponder t = true /\ bits_ok m_mst_status 0 (mst_status x) /\ bits_ok m_levels 4 (mst_levels x) /\ bits_ok m_dap 8 (mst_dap x) /\
      bits_ok m_altitude 0 (mst_altitude x) /\ zlen (mst_id x) <= 8 /\ ascii (mst_id x) /\ ends_alnum (mst_id x) end.
Definition is_some {A} (o : option A) : bool := match o with Some _ => true | None => false end.
Definition fits_iff (x : Iff) : Prop :=
  size_iff x < 65520 /\ bits_ok m_layers 0 (fo_layers (Iff_data x)) /\
  is_some (Iff_layer_2 x) = Z.testbit (fo_layers (Iff_data x)) 5 /\ is_some (Iff_layer_3 x) = Z.testbit (fo_layers (Iff_data x)) 4 /\
  is_some (Iff_layer_4 x) = Z.testbit (fo_layers (Iff_data x)) 3 /\ is_some (Iff_layer_5 x) = Z.testbit (fo_layers (Iff_data x)) 2 /\
  wf_option (fun l => m5_ok (si_type (Iff_system_id x)) (l3_basic l) /\ Forall idr_ok (l3_records l)) (Iff_layer_3 x) /\
  wf_option (fun l => ms_ok (si_type (Iff_system_id x)) (l4_basic l) /\ Forall idr_ok (l4_records l)) (Iff_layer_4 x) /\
  wf_option (fun l => bits_ok m_layers 0 (l5_layers l) /\ Forall idr_ok (l5_records l)) (Iff_layer_5 x).
(* model.rs:67-75 *)
Definition orig_iff (x : Iff) : option EntityId := Some (Iff_emitting_entity_id x).
Definition recv_iff (x : Iff) : option EntityId := None.

(** * Round trip *)
Lemma RT_layer_header h : wf_LayerHeader h -> RT (w_layer_header h) p_layer_header h 4 4.
Proof. destruct h; unfold wf_LayerHeader, w_layer_header, p_layer_header; cbn [lh_number lh_specific lh_length]; intros; wfd. rt. Qed.
Lemma RT_iff_parameter p : wf_IffParameter p -> RT (w_iff_parameter p) p_iff_parameter p 24 24.
Proof.
  destruct p; unfold wf_IffParameter, w_iff_parameter, p_iff_parameter;
  cbn [ip_erp ip_frequency ip_pgrf ip_pulse_width ip_burst ip_modes ip_s1 ip_s2 ip_s3]; intros; wfd. rt.
Qed.
Lemma RT_system_id s : wf_SystemId s -> RT (w_system_id s) p_system_id s 6 6.
Proof. destruct s; unfold wf_SystemId, w_system_id, p_system_id; cbn [si_type si_name si_mode si_change]; intros; wfd. rt. Qed.
Global Hint Resolve RT_layer_header RT_system_id : rt.
Lemma RT_fund_op_data d : wf_FundOpData d -> bits_ok m_layers 0 (fo_layers d) -> RT (w_fund_op_data d) p_fund_op_data d 16 16.
Proof.
  destruct d; unfold wf_FundOpData, w_fund_op_data, p_fund_op_data;
  cbn [fo_status fo_field1 fo_layers fo_field2 fo_p1 fo_p2 fo_p3 fo_p4 fo_p5 fo_p6]; intros; wfd.
  eapply RT_conv; [do 2 rt_step; eapply RT_bind; [apply RT_bits8; [apply RT_u8; assumption|assumption]|]; cbv beta; repeat rt_step| | |]; reflexivity.
Qed.
Lemma size_idr_bound r : 6 <= size_idr r.
Proof. unfold size_idr. pose proof (zlen_nonneg (idr_fields r)). pose proof (pad_to_bound (6 + zlen (idr_fields r)) 4). lia. Qed.
Lemma idr_ok_size r : idr_ok r -> size_idr r = 6 + zlen (idr_fields r).
Proof. unfold idr_ok, size_idr. intros H. rewrite pad_to_aligned by (lia || assumption). lia. Qed.
Lemma RT_iff_data_record r : wf_IffDataRecord r -> idr_ok r -> size_idr r < 65536 -> RT (w_iff_data_record r) p_iff_data_record r (size_idr r) (size_idr r).
Proof.
  intros [Ht Hb] Hok Hs. rewrite (idr_ok_size r Hok) in *. pose proof (zlen_nonneg (idr_fields r)).
  destruct r as [t f]; unfold idr_ok, w_iff_data_record, p_iff_data_record in *; cbn [idr_type idr_fields] in *.
  rewrite w_padded_ok by lia. rewrite pad_to_aligned by (lia || assumption). unfold wbind at 1. cbn [pl_record pl_padding].
  rewrite Z.add_0_r, Z.mod_small by lia.
  match goal with |- RT ?w _ _ _ _ => assert (E : w = (put_u32 t;; put_u16 (6 + zlen f);; put_slice f;; wret (6 + zlen f))%write) end.
  { unfold put_u32, put_u16, put_slice, put_bytes, put, wbind, wret. cbn [Z.to_nat repeat app]. now rewrite ?app_nil_r. }
  rewrite E.
  eapply RT_conv.
  - eapply RT_bind; [apply RT_u32; assumption|]. eapply RT_bind; [apply RT_u16; range|]. cbv beta.
    replace (Z.max 0 (6 + zlen f - 6)) with (zlen f) by lia.
    eapply RT_bind; [apply RT_slice; reflexivity|]. cbv beta. apply RT_ret.
  - reflexivity.
  - reflexivity.
  - lia.
Qed.
Lemma idrs_bound l : 6 * zlen l <= zsum (map size_idr l).
Proof. apply zsum_lower. intros v _. apply size_idr_bound. Qed.
Lemma idr_le l v : In v l -> size_idr v <= zsum (map size_idr l).
Proof. intros Hi. apply zsum_elt_le; [|exact Hi]. intros y _. pose proof (size_idr_bound y). lia. Qed.
Lemma RT_iff_data_specification m l : Forall wf_IffDataRecord l -> Forall idr_ok l -> size_idrs l < 65536 ->
  RT (w_iff_data_specification m l) p_iff_data_specification l (size_idrs l) (size_idrs l).
Proof.
  intros Hw Hok Hs. unfold size_idrs, w_iff_data_specification, p_iff_data_specification in *. pose proof (idrs_bound l). pose proof (zlen_nonneg l).
  rewrite (Z.mod_small (zlen l)) by lia.
  eapply RT_conv.
  - rt_step. eapply RT_bind with (x1 := l) (r1 := zsum (map size_idr l)) (L1 := zsum (map size_idr l)).
    { apply RT_wmap_sum; [reflexivity| |lia]. intros v Hi. rewrite Forall_forall in *. pose proof (idr_le _ _ Hi). apply RT_iff_data_record; auto. lia. }
    cbv beta. apply RT_pure_end, add16_ok; lia.
  - reflexivity.
  - lia.
  - lia.
Qed.
Lemma RT_iff_layer_2 m l : wf_IffLayer2 l -> size_l2 l < 65536 -> RT (w_iff_layer_2 m l) p_iff_layer_2 l (size_l2 l) (size_l2 l).
Proof.
  destruct l as [h b o1 o2 ps]; unfold wf_IffLayer2, w_iff_layer_2, p_iff_layer_2, size_l2; cbn [l2_header l2_beam l2_op1 l2_op2 l2_params]; intros; wfd.
  pose proof (zlen_nonneg ps). rewrite (Z.mod_small (zlen ps)) by lia.
  eapply RT_conv.
  - do 5 rt_step. eapply RT_bind; [apply (RT_const_list m w_iff_parameter p_iff_parameter wf_IffParameter 24); [exact RT_iff_parameter|reflexivity|assumption|lia]|].
    cbv beta. apply RT_pure_end, add16_ok; lia.
  - reflexivity.
  - lia.
  - lia.
Qed.
Lemma not_both t : is_interrogator t = true -> is_transponder t = false.
Proof.
  unfold is_interrogator, is_transponder. intros H. rewrite !orb_true_iff, !Z.eqb_eq in H. destruct H as [[[[->| ->]| ->]| ->]| ->]; reflexivity.
Qed.
Ltac bits_step :=
  first [ eapply RT_bind; [apply RT_bits8; [apply RT_u8; assumption|assumption]|]; cbv beta
        | eapply RT_bind; [apply RT_bits16; [apply RT_u16; assumption|assumption]|]; cbv beta
        | eapply RT_bind; [apply RT_pad; lia|]; cbv beta
        | rt_step ].
Lemma RT_mode5_basic_data t b : wf_Mode5BasicData b -> m5_ok t b -> RT (w_mode5_basic_data b) (p_mode5_basic_data t) b 16 16.
Proof.
  destruct b as [x|x]; cbn [wf_Mode5BasicData m5_ok w_mode5_basic_data]; unfold p_mode5_basic_data.
  - intros Hw [Ht Hs]. rewrite (not_both t Ht), Ht. destruct x; unfold wf_M5I, w_mode5_interrogator, p_mode5_interrogator in *;
    cbn [m5i_status m5i_formats m5i_entity] in *; wfd.
    eapply RT_conv; [apply RT_passoc; cbv beta; repeat (first [bits_step | apply RT_passoc; cbv beta | apply RT_pret_bind; cbv beta])| | |]; reflexivity.
  - intros Hw (Ht & Hs & H1 & H2). rewrite Ht. destruct x; unfold wf_M5T, w_mode5_transponder, p_mode5_transponder in *;
    cbn [m5t_status m5t_pin m5t_formats m5t_mode1 m5t_origin m5t_supplemental m5t_nav m5t_merit] in *; wfd.
    eapply RT_conv; [apply RT_passoc; cbv beta; repeat (first [bits_step | apply RT_passoc; cbv beta | apply RT_pret_bind; cbv beta])| | |]; reflexivity.
Qed.
Lemma sanitize_zeros l n : ascii l -> ends_alnum l -> sanitize_marking (l ++ repeat 0 n) = l.
Proof.
  intros Ha He. rewrite <- (encode_ascii l Ha) at 1. rewrite sanitize_padded; [apply encode_ascii, Ha|apply scalar_ascii, Ha|exact He|lia|reflexivity].
Qed.
Lemma RT_ascii8 (s : list Z) : zlen s <= 8 -> ascii s -> ends_alnum s -> RT (w_ascii8 s) p_ascii8 s tt 8.
Proof.
  intros Hl Ha He. pose proof (zlen_nonneg s).
  exists (s ++ repeat 0 (Z.to_nat (8 - zlen s))). split; [|split].
  - unfold w_ascii8. destruct (Z.ltb_spec 8 (zlen s)); [lia|]. cbn [orb].
    replace (forallb (fun c => c <? 128) s) with true; [reflexivity|].
    symmetry. apply forallb_forall. intros c Hc. unfold ascii in Ha. rewrite Forall_forall in Ha. specialize (Ha c Hc). apply Z.ltb_lt. lia.
  - rewrite zlen_app, zlen_repeat. lia.
  - intros rest. unfold p_ascii8, pbind. rewrite take_app; [|rewrite zlen_app, zlen_repeat; lia].
    rewrite sanitize_zeros by assumption. reflexivity.
Qed.
Lemma RT_modes_basic_data t b : wf_ModeSBasicData b -> ms_ok t b -> RT (w_modes_basic_data b) (p_modes_basic_data t) b 24 (24 - modes_deficit b).
Proof.
  destruct b as [x|x]; cbn [wf_ModeSBasicData ms_ok w_modes_basic_data modes_deficit]; unfold p_modes_basic_data.
  - intros Hw (Ht & Hs & Hl). rewrite (not_both t Ht), Ht. destruct x; unfold wf_MSI, w_modes_interrogator, p_modes_interrogator in *;
    cbn [msi_status msi_levels] in *; wfd.
    eapply RT_conv; [apply RT_passoc; cbv beta; repeat (first [bits_step | apply RT_passoc; cbv beta | apply RT_pret_bind; cbv beta])| | |]; reflexivity.
  - intros Hw (Ht & Hs & Hl & Hd & Ha & Hz & Has & He). rewrite Ht. destruct x as [st lv dm id ad it dp al cp]; unfold wf_MST, w_modes_transponder, p_modes_transponder in *;
    cbn [mst_status mst_levels mst_domain mst_id mst_address mst_idtype mst_dap mst_altitude mst_capability] in *; wfd.
    eapply RT_conv; [apply RT_passoc; cbv beta; repeat (first [bits_step | eapply RT_bind; [apply RT_ascii8; assumption|]; cbv beta | apply RT_passoc; cbv beta | apply RT_pret_bind; cbv beta])| | |]; reflexivity.
Qed.
Lemma RT_iff_layer_3 m t l : wf_IffLayer3 l -> m5_ok t (l3_basic l) -> Forall idr_ok (l3_records l) -> size_l3 l < 65536 ->
  RT (w_iff_layer_3 m l) (p_iff_layer_3 t) l (size_l3 l) (size_l3 l).
Proof.
  destruct l as [h s b r]; unfold wf_IffLayer3, w_iff_layer_3, p_iff_layer_3, size_l3; cbn [l3_header l3_sim l3_basic l3_records]; intros; wfd.
  assert (2 <= size_idrs r) by (unfold size_idrs; pose proof (idrs_bound r); pose proof (zlen_nonneg r); lia).
  eapply RT_conv.
  - do 2 rt_step. eapply RT_bind; [apply RT_mode5_basic_data; assumption|]; cbv beta. rt_step.
    eapply RT_bind; [apply RT_iff_data_specification; (assumption || lia)|]; cbv beta. apply RT_pure_end, add16_ok; lia.
  - reflexivity.
  - lia.
  - lia.
Qed.
Lemma RT_iff_layer_4 m t l : wf_IffLayer4 l -> ms_ok t (l4_basic l) -> Forall idr_ok (l4_records l) -> size_l4 l + modes_deficit (l4_basic l) < 65536 ->
  RT (w_iff_layer_4 m l) (p_iff_layer_4 t) l (size_l4 l + modes_deficit (l4_basic l)) (size_l4 l).
Proof.
  destruct l as [h s b r]; unfold wf_IffLayer4, w_iff_layer_4, p_iff_layer_4, size_l4; cbn [l4_header l4_sim l4_basic l4_records]; intros; wfd.
  assert (2 <= size_idrs r) by (unfold size_idrs; pose proof (idrs_bound r); pose proof (zlen_nonneg r); lia).
  eapply RT_conv.
  - do 2 rt_step. eapply RT_bind; [apply RT_modes_basic_data; assumption|]; cbv beta. rt_step.
    eapply RT_bind; [apply RT_iff_data_specification; (assumption || lia)|]; cbv beta. apply RT_pure_end, add16_ok; lia.
  - reflexivity.
  - lia.
  - lia.
Qed.
Lemma RT_iff_layer_5 m l : wf_IffLayer5 l -> bits_ok m_layers 0 (l5_layers l) -> Forall idr_ok (l5_records l) -> size_l5 l < 65536 ->
  RT (w_iff_layer_5 m l) p_iff_layer_5 l (size_l5 l) (size_l5 l).
Proof.
  destruct l as [h s b c r]; unfold wf_IffLayer5, w_iff_layer_5, p_iff_layer_5, size_l5; cbn [l5_header l5_sim l5_layers l5_category l5_records]; intros; wfd.
  assert (2 <= size_idrs r) by (unfold size_idrs; pose proof (idrs_bound r); pose proof (zlen_nonneg r); lia).
  eapply RT_conv.
  - do 3 rt_step. bits_step. do 2 rt_step.
    eapply RT_bind; [apply RT_iff_data_specification; (assumption || lia)|]; cbv beta. apply RT_pure_end, add16_ok; lia.
  - reflexivity.
  - lia.
  - lia.
Qed.
Lemma RT_option {A} (w : A -> W Z) (p : bparser A) o b r L :
  is_some o = b -> (forall a, o = Some a -> RT (w a) p a (r a) (L a)) ->
  RT (w_option w o) (p_option b p) o (opt_size r o) (opt_size L o).
Proof.
  intros <- H. destruct o as [a|]; cbn [is_some w_option opt_size]; unfold p_option.
  - destruct (H a eq_refl) as (bs & H1 & H2 & H3). exists bs. split; [exact H1|split; [exact H2|]]. intros rest. unfold pbind. rewrite H3. reflexivity.
  - apply RT_ret.
Qed.
Lemma size_idrs_bound l : 2 <= size_idrs l.
Proof. unfold size_idrs. pose proof (idrs_bound l). pose proof (zlen_nonneg l). lia. Qed.
Lemma size_l2_nonneg o : 0 <= opt_size size_l2 o.
Proof. destruct o as [l|]; cbn [opt_size]; [|lia]. unfold size_l2. pose proof (zlen_nonneg (l2_params l)). lia. Qed.
Lemma size_l3_nonneg o : 0 <= opt_size size_l3 o.
Proof. destruct o as [l|]; cbn [opt_size]; [|lia]. unfold size_l3. pose proof (size_idrs_bound (l3_records l)). lia. Qed.
Lemma size_l4_nonneg o : 0 <= opt_size size_l4 o.
Proof. destruct o as [l|]; cbn [opt_size]; [|lia]. unfold size_l4, modes_deficit. pose proof (size_idrs_bound (l4_records l)). destruct (l4_basic l); lia. Qed.
Lemma size_l5_nonneg o : 0 <= opt_size size_l5 o.
Proof. destruct o as [l|]; cbn [opt_size]; [|lia]. unfold size_l5. pose proof (size_idrs_bound (l5_records l)). lia. Qed.
Lemma opt_size_add {A} f g (o : option A) : opt_size (fun a => f a + g a) o = opt_size f o + opt_size g o.
Proof. destruct o; cbn [opt_size]; lia. Qed.
Lemma deficit_range x : 0 <= deficit_iff x <= 3.
Proof. unfold deficit_iff. destruct (Iff_layer_4 x) as [l|]; cbn [opt_size]; [|lia]. unfold modes_deficit. destruct (l4_basic l); lia. Qed.
Lemma RT_iff m x : wf_Iff x -> fits_iff x -> RT (w_iff m x) p_iff_body x (size_iff x + deficit_iff x) (size_iff x).
Proof.
  intros Hw (Hs & Hb & H2 & H3 & H4 & H5 & F3 & F4 & F5). pose proof (deficit_range x) as Hdef.
  unfold size_iff, deficit_iff in *. unfold w_iff, p_iff_body.
  destruct x as [i e a s d sp f l2 l3 l4 l5]; unfold wf_Iff in Hw;
  cbn [Iff_emitting_entity_id Iff_event_id Iff_antenna Iff_system_id Iff_designator Iff_specific Iff_data Iff_layer_2 Iff_layer_3 Iff_layer_4 Iff_layer_5] in *; wfd.
  pose proof (size_l2_nonneg l2). pose proof (size_l3_nonneg l3). pose proof (size_l4_nonneg l4). pose proof (size_l5_nonneg l5).
  eapply RT_conv.
  - do 6 rt_step. eapply RT_bind; [apply RT_fund_op_data; assumption|]; cbv beta.
    eapply RT_bind; [apply (RT_option (w_iff_layer_2 m) p_iff_layer_2 l2 _ size_l2 size_l2 H2)|]; cbv beta.
    { intros l ->. cbn [opt_size wf_option] in *. apply RT_iff_layer_2; (assumption || lia). }
    eapply RT_bind; [apply (RT_option (w_iff_layer_3 m) (p_iff_layer_3 (si_type s)) l3 _ size_l3 size_l3 H3)|]; cbv beta.
    { intros l ->. cbn [opt_size wf_option] in *. apply RT_iff_layer_3; (tauto || lia). }
    eapply RT_bind; [apply (RT_option (w_iff_layer_4 m) (p_iff_layer_4 (si_type s)) l4 _ (fun l => size_l4 l + modes_deficit (l4_basic l)) size_l4 H4)|]; cbv beta.
    { intros l ->. cbn [opt_size wf_option] in *. apply RT_iff_layer_4; (tauto || lia). }
    eapply RT_bind; [apply (RT_option (w_iff_layer_5 m) p_iff_layer_5 l5 _ size_l5 size_l5 H5)|]; cbv beta.
    { intros l ->. cbn [opt_size wf_option] in *. apply RT_iff_layer_5; (tauto || lia). }
    rewrite opt_size_add.
    do 3 (eapply RT_wpure; [apply add16_ok; lia|]). apply RT_pure_end, add16_ok; lia.
  - reflexivity.
  - lia.
  - lia.
Qed.

(** * Length, extension, safety *)
Lemma len_iff_records_ok m l : size_idrs l < 65536 -> len_iff_records m l = WOk [] (size_idrs l).
Proof.
  intros Hs. unfold len_iff_records, size_idrs in *. pose proof (idrs_bound l). pose proof (zlen_nonneg l).
  rewrite wmap_sum_pure with (len := size_idr); [unfold wbind; rewrite add16_ok by lia; reflexivity| |lia].
  intros v Hi. pose proof (idr_le _ _ Hi). pose proof (size_idr_bound v). split; [|lia]. pose proof (zlen_nonneg (idr_fields v)).
  rewrite w_padded_ok by lia. unfold wbind, wret. cbn [pl_record app]. unfold size_idr in *. rewrite Z.mod_small by lia. reflexivity.
Qed.
(** [body_length] counts 12 octets too many, and 3 more for a mode S transponder *)
Lemma len_iff_ok m x : size_iff x < 65520 -> len_iff m x = WOk [] (size_iff x + 12 + deficit_iff x).
Proof.
  intros Hs. pose proof (deficit_range x). unfold len_iff, size_iff, deficit_iff in *.
  pose proof (size_l2_nonneg (Iff_layer_2 x)). pose proof (size_l3_nonneg (Iff_layer_3 x)). pose proof (size_l4_nonneg (Iff_layer_4 x)). pose proof (size_l5_nonneg (Iff_layer_5 x)).
  assert (E2 : w_option (len_layer_2 m) (Iff_layer_2 x) = WOk [] (opt_size size_l2 (Iff_layer_2 x))).
  { destruct (Iff_layer_2 x) as [l|]; cbn [w_option opt_size] in *; [|reflexivity]. unfold len_layer_2, size_l2 in *. pose proof (zlen_nonneg (l2_params l)).
    rewrite Z.mod_small by lia. rewrite mul16_ok by lia. unfold wbind. rewrite add16_ok by lia. cbn [app]. f_equal. lia. }
  assert (E3 : w_option (len_layer_3 m) (Iff_layer_3 x) = WOk [] (opt_size size_l3 (Iff_layer_3 x))).
  { destruct (Iff_layer_3 x) as [l|]; cbn [w_option opt_size] in *; [|reflexivity]. unfold len_layer_3, size_l3 in *. pose proof (size_idrs_bound (l3_records l)).
    rewrite len_iff_records_ok by lia. unfold wbind. rewrite add16_ok by lia. reflexivity. }
  assert (E4 : w_option (len_layer_4 m) (Iff_layer_4 x) = WOk [] (opt_size size_l4 (Iff_layer_4 x) + opt_size (fun l => modes_deficit (l4_basic l)) (Iff_layer_4 x))).
  { destruct (Iff_layer_4 x) as [l|]; cbn [w_option opt_size] in *; [|reflexivity]. unfold len_layer_4, size_l4 in *. pose proof (size_idrs_bound (l4_records l)).
    rewrite len_iff_records_ok by lia. unfold wbind. rewrite add16_ok by lia. cbn [app]. f_equal. lia. }
  assert (E5 : w_option (len_layer_5 m) (Iff_layer_5 x) = WOk [] (opt_size size_l5 (Iff_layer_5 x))).
  { destruct (Iff_layer_5 x) as [l|]; cbn [w_option opt_size] in *; [|reflexivity]. unfold len_layer_5, size_l5 in *. pose proof (size_idrs_bound (l5_records l)).
    rewrite len_iff_records_ok by lia. unfold wbind. rewrite add16_ok by lia. reflexivity. }
  rewrite E2, E3, E4, E5. unfold wbind. repeat (rewrite add16_ok by lia). cbn [app]. f_equal. lia.
Qed.
Lemma Ext_layer_header : Ext p_layer_header. Proof. unfold p_layer_header; ext. Qed.
Lemma Ext_iff_parameter : Ext p_iff_parameter. Proof. unfold p_iff_parameter; ext. Qed.
Lemma Ext_iff_data_record : Ext p_iff_data_record. Proof. unfold p_iff_data_record; ext. Qed.
Lemma Ext_system_id : Ext p_system_id. Proof. unfold p_system_id; ext. Qed.
Lemma Ext_fund_op_data : Ext p_fund_op_data. Proof. unfold p_fund_op_data; ext. Qed.
Lemma Ext_mode5_interrogator : Ext p_mode5_interrogator. Proof. unfold p_mode5_interrogator; ext. Qed.
Lemma Ext_mode5_transponder : Ext p_mode5_transponder. Proof. unfold p_mode5_transponder; ext. Qed.
Lemma Ext_modes_interrogator : Ext p_modes_interrogator. Proof. unfold p_modes_interrogator; ext. Qed.
Lemma Ext_ascii8 : Ext p_ascii8. Proof. unfold p_ascii8; ext. Qed.
Global Hint Resolve Ext_ascii8 : ext.
Lemma Ext_modes_transponder : Ext p_modes_transponder. Proof. unfold p_modes_transponder; ext. Qed.
Global Hint Resolve Ext_layer_header Ext_iff_parameter Ext_iff_data_record Ext_system_id Ext_fund_op_data Ext_mode5_interrogator Ext_mode5_transponder Ext_modes_interrogator Ext_modes_transponder : ext.
Lemma Ext_iff_data_specification : Ext p_iff_data_specification. Proof. unfold p_iff_data_specification; ext. Qed.
Lemma Ext_mode5_basic_data t : Ext (p_mode5_basic_data t). Proof. unfold p_mode5_basic_data; destruct (is_transponder t), (is_interrogator t); ext. Qed.
Lemma Ext_modes_basic_data t : Ext (p_modes_basic_data t). Proof. unfold p_modes_basic_data; destruct (is_transponder t), (is_interrogator t); ext. Qed.
Lemma Ext_option {A} b (p : bparser A) : Ext p -> Ext (p_option b p). Proof. intros. unfold p_option; destruct b; ext. Qed.
Global Hint Resolve Ext_iff_data_specification Ext_mode5_basic_data Ext_modes_basic_data Ext_option : ext.
Lemma Ext_iff_layer_2 : Ext p_iff_layer_2. Proof. unfold p_iff_layer_2; ext. Qed.
Lemma Ext_iff_layer_3 t : Ext (p_iff_layer_3 t). Proof. unfold p_iff_layer_3; ext. Qed.
Lemma Ext_iff_layer_4 t : Ext (p_iff_layer_4 t). Proof. unfold p_iff_layer_4; ext. Qed.
Lemma Ext_iff_layer_5 : Ext p_iff_layer_5. Proof. unfold p_iff_layer_5; ext. Qed.
Global Hint Resolve Ext_iff_layer_2 Ext_iff_layer_3 Ext_iff_layer_4 Ext_iff_layer_5 : ext.
Lemma Ext_iff : Ext p_iff_body. Proof. unfold p_iff_body; ext. Qed.
Lemma Safe_layer_header : Safe p_layer_header. Proof. unfold p_layer_header; safe. Qed.
Lemma Safe_iff_parameter : Safe p_iff_parameter. Proof. unfold p_iff_parameter; safe. Qed.
Lemma Safe_iff_data_record : Safe p_iff_data_record.
Proof.
  unfold p_iff_data_record. eapply Safe_bind; [apply Safe_be_u32|]; intros t _. eapply Safe_bind; [apply Safe_be_u16|]; intros n _.
  eapply Safe_bind; [apply Safe_take; lia|]; intros f _. now apply Safe_ret.
Qed.
Lemma Safe_system_id : Safe p_system_id. Proof. unfold p_system_id; safe. Qed.
Lemma Safe_fund_op_data : Safe p_fund_op_data. Proof. unfold p_fund_op_data; safe. Qed.
Lemma Safe_mode5_interrogator : Safe p_mode5_interrogator. Proof. unfold p_mode5_interrogator; safe. Qed.
Lemma Safe_mode5_transponder : Safe p_mode5_transponder. Proof. unfold p_mode5_transponder; safe. Qed.
Lemma Safe_modes_interrogator : Safe p_modes_interrogator. Proof. unfold p_modes_interrogator; safe. Qed.
Lemma Safe_ascii8 : Safe p_ascii8. Proof. unfold p_ascii8; safe. Qed.
Global Hint Resolve Safe_ascii8 : safe.
Lemma Safe_modes_transponder : Safe p_modes_transponder. Proof. unfold p_modes_transponder; safe. Qed.
Global Hint Resolve Safe_layer_header Safe_iff_parameter Safe_iff_data_record Safe_system_id Safe_fund_op_data Safe_mode5_interrogator Safe_mode5_transponder Safe_modes_interrogator Safe_modes_transponder : safe.
Lemma Safe_iff_data_specification : Safe p_iff_data_specification. Proof. unfold p_iff_data_specification; safe. Qed.
Lemma Safe_mode5_basic_data t : Safe (p_mode5_basic_data t). Proof. unfold p_mode5_basic_data; destruct (is_transponder t), (is_interrogator t); safe. Qed.
Lemma Safe_modes_basic_data t : Safe (p_modes_basic_data t). Proof. unfold p_modes_basic_data; destruct (is_transponder t), (is_interrogator t); safe. Qed.
Lemma Safe_option {A} b (p : bparser A) : Safe p -> Safe (p_option b p). Proof. intros. unfold p_option; destruct b; safe. Qed.
Global Hint Resolve Safe_iff_data_specification Safe_mode5_basic_data Safe_modes_basic_data Safe_option : safe.
Lemma Safe_iff_layer_2 : Safe p_iff_layer_2. Proof. unfold p_iff_layer_2; safe. Qed.
Lemma Safe_iff_layer_3 t : Safe (p_iff_layer_3 t). Proof. unfold p_iff_layer_3; safe. Qed.
Lemma Safe_iff_layer_4 t : Safe (p_iff_layer_4 t). Proof. unfold p_iff_layer_4; safe. Qed.
Lemma Safe_iff_layer_5 : Safe p_iff_layer_5. Proof. unfold p_iff_layer_5; safe. Qed.
Global Hint Resolve Safe_iff_layer_2 Safe_iff_layer_3 Safe_iff_layer_4 Safe_iff_layer_5 : safe.
Lemma Safe_iff : Safe p_iff_body. Proof. unfold p_iff_body; safe. Qed.

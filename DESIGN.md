# Formal model of zlubsen/dis-rs in Rocq (Coq 8.16.1)

`rocq/theories/` holds a hand-written functional model of the Rust sources in
`/repo`, one Gallina function per Rust function, each with a comment that cites
the file and lines it models and says where it simplifies. The properties are in
`properties.jsonl`; `MANIFEST.json` maps each to its theorems.

## Layout

| Files | Content | Rust source |
|---|---|---|
| `Base` | integer ranges, big-endian octets, `nom` parsers (`POk`/`PErr`/`PPanic`), `BytesMut` writers, overflow modes | `nom`, `bytes`, integer semantics |
| `DisHeader`, `DisCommon`, `DisLists` | PDU header and status, shared records, counted lists, descriptor records, variable parameters | `dis-rs/src/common/{model,parser,writer}.rs`, `variable_parameters.rs` |
| `Utf8` | text: UTF-8, `from_utf8_lossy`, trimming, character classes, `sanitize_marking` | `dis-rs/src/common/parser.rs:741-746` and the Rust standard library |
| `DisSimman`, `DisLogistics`, `DisWarfare`, `DisEntity`, `DisEmission`, `DisRadio`, `DisIff` | every PDU body dis-rs supports: parser, writer, `body_length` | `dis-rs/src/common/*/{model,parser,writer}.rs` |
| `DisPdu`, `DisPacket` | dispatch, `Pdu::serialize`, `finalize_from_parts`, `parse`, `parse_v6`, `parse_v7`, header-only parsing | `dis-rs/src/common/{model,parser,writer,mod}.rs`, `lib.rs`, `v6`, `v7` |
| `DisText` | time stamps, `EntityType` text form | `dis-rs/src/common/model.rs` |
| `EnumGen` | the code generator for enumerations and bit fields | `dis-rs/build.rs` |
| `CdisSized` | variable-width integers with their size tag | `cdis-assemble/src/types/{model,writer}.rs` |
| `CdisBase` | bit-level reading and writing, variable-width integers | `cdis-assemble/src/{parsing,writing}.rs`, `types/*` |
| `CdisRecords`, `CdisBodies1`, `CdisBodies2`, `CdisIff`, `CdisPdu` | C-DIS records and PDUs, headers, dispatch | `cdis-assemble/src/records/*`, `*/{model,parser,writer}.rs`, `lib.rs` |
| `CdisCodec1`, `CdisCodec2`, `CdisCodec3` | DIS <-> C-DIS translation, codec options and per-entity state | `cdis-assemble/src/codec.rs`, `*/codec.rs` |
| `Gateway` | gateway encoder, decoder and statistics | `cdis-gateway/src/{codec,stats}.rs` |
| `GatewaySys` | the tasks and channels of the running gateway as a labelled transition system | `cdis-gateway/src/main.rs` |
| `Spec*` | specifications: what the statements of the theorems mean, independent of the model's helpers | - |
| `FloatReal`, `FloatBits`, `FloatBits64`, `L_*` | lemmas and proofs | - |
| `Props_*` | the theorems, each followed by `Print Assumptions` and a concrete example that meets its hypotheses | - |

## Modelling conventions

* Integers are `Z`. The range of the Rust type (`u8`, `u16`, `i16` ...) is stated
  by a `wf_*` predicate of each record: what the Rust type system guarantees and
  nothing else, unless its comment says otherwise. `fits_*` predicates are the
  extra conditions a value must meet to survive the wire (counts below 256,
  text lengths and so on); where such a condition is a defect, a `_refuted`
  theorem shows it is needed.
* `f32`/`f64` fields are their IEEE bit patterns (`u32`/`u64`). The codecs that
  compute with floats use the standard library's `SpecFloat` (the executable
  IEEE-754 operations); the precision theorems relate it to `R` with Flocq.
  Equality in the model is bit equality (finer than Rust's `PartialEq`, which
  identifies +0/-0 and separates NaN).
* Octet buffers are `list Z`; bit buffers are `list bool`. `BytesMut` with
  `BufMut::put_*` is an append-only writer (appended octets and returned value,
  or a panic). The `bitvec` buffer of `cdis-assemble` is a fixed-size bit list
  written at a cursor, so stale bits are visible.
* `nom` parsers (complete, octet and bit level) are functions
  `input -> POk rest value | PErr kind | PPanic`. Panics are explicit results.
* Integer overflow: Rust panics with overflow checks (debug builds) and wraps in
  release builds. Functions where this matters take a `mode` argument
  (`Checked` / `Wrapping`); theorems say for which mode they hold or quantify
  over it.
* Enumerations generated from SISO-REF-010 by `dis-rs/build.rs`: the XML source
  is not in the repository. `EnumGen` models the generator for arbitrary tables.
  In the PDU models an enum field is its raw integer; code that branches on an
  enum uses the numeric value of the branch. Non-canonical values
  (`Unspecified(v)` for a `v` that has a name) are outside the PDU models;
  `EnumGen` says what happens to them.
* `HashMap` is a finite map from keys to values given as an association list.
* Time (`Instant`) is an input of each codec step in whole nanoseconds, read
  once per PDU; seconds and the heartbeat time-out are computed in f32 as the
  code does.
* The gateway's tasks are processes whose atomic steps are: receive a datagram,
  put it on the bounded channel, translate one datagram, report an event, put
  the result on the output channel, send it, end. The scheduler is arbitrary:
  every theorem about the running gateway holds for every interleaving.

## What is not modelled

* `cdis-gateway/src/site.rs`: HTTP, the static pages, the configuration page, the indicators and the printing
  of numbers (the numbers in the panels and the way to them are modelled, C61); `#[derive(Debug)]`
  and `Display` output other than the text forms of C22, the `Default` values of other types than the PDU bodies, doc tests, logging (`tracing`).
* The SISO-REF-010 XML tables themselves.
* The text of IEEE 1278.1 is not in the sandbox: the tables of `SpecLayout.v` (C55)
  are written from knowledge of the standard, independent of the library's code,
  except the 32-bit padding of Action Request-R and the order of bits packed
  within one octet or word, which follow the library.
* Reading the command line and the TOML file (`clap`, `toml`, `serde`): the model
  of the configuration starts at `ConfigSpec`; parsing a socket address is an
  arbitrary function, and so is lower-casing outside ASCII.
* Sockets: a datagram arrives or is sent as one atomic step, or the socket
  reports an error. The async runtime's internals are the arbitrary scheduler.
* Geodesy: `ecef_to_geodetic_lla`/`geodetic_lla_to_ecef` are modelled in real
  arithmetic (`Geodesy.v`, C57); their rounding in f64 and that of libm is not.
  In the codec theorems they are arbitrary functions (`Geo`) on f64 values over
  which the theorems quantify; the last theorem of C57 assumes that these compute
  the real functions to 1 mm and 1e-9 rad near the surface. Near the centre of
  the earth (some 30 km) the code takes arcsines of numbers beyond 1 (NaN).
* `f32::powf(10, e)` is the correctly rounded power of ten.
* `char::is_alphanumeric` is the table of Unicode 15.0 (`Utf8.v`); the version
  that applies is that of the Rust release the library is built with.
* Allocation failure, `usize` narrower than 64 bits, u64 counter overflow in the
  statistics, signal-channel errors at shutdown.
* C-DIS variable-width integers inside records and PDUs are their numeric value
  alone: the bit width is the one the `From` conversions choose. Overwriting the
  public number while the width stays is modelled for the integers by themselves
  (`CdisSized`, C23, C24), not inside a PDU.

## How each property is modelled and proved

| Property | Modelled and specified in | Method | Theorem file(s) |
|---|---|---|---|
| C01 Enumeration decoding is total and lossless | `EnumGen` (generator over arbitrary tables) | induction over the rows; bit lemmas; refutations for cross-reference rows and oversized bit-field values | Props_Enum.v |
| C02 Named enumeration values survive the wire | `EnumGen` (generator over arbitrary tables) | induction over the rows; bit lemmas; refutations for cross-reference rows and oversized bit-field values | Props_Enum.v |
| C03 Bitfield records round-trip | `EnumGen` (generator over arbitrary tables) | induction over the rows; bit lemmas; refutations for cross-reference rows and oversized bit-field values | Props_Enum.v |
| C04 PDU header round-trip | `DisHeader`, `SpecWire` | unfolding, primitive round trips; finite sweep over status bytes | Props_Wire.v |
| C05 PDU status byte is PDU-type directed | `DisHeader`, `SpecWire` | unfolding, primitive round trips; finite sweep over status bytes | Props_Wire.v |
| C06 Serialization writes exactly the advertised number of bytes | every writer and `body_length`; `SpecWire.exact_types` | per-body length lemmas, list induction; characterises the types whose declared length is right, refutes the others | Props_Length.v, Props_Wire.v |
| C07 Insufficient buffer is reported, not overrun | `DisPdu.serialize`; `SpecWire` | case analysis on capacity and declared length; refutation for under-declared bodies | Props_Length.v, Props_Wire.v |
| C08 finalize_from_parts yields a consistent header | `DisPdu.finalize` | unfolding; arithmetic modulo 2^16 | Props_Wire.v |
| C09 Parse inverts serialize for a single PDU | all parsers and writers; `fits_Pdu` | `RT` combinators (round trip of each primitive), induction for lists | Props_Relay.v, Props_Wire.v |
| C10 Parse splits a packet into its PDUs | `DisPacket.parse`, `serialize` | induction over the packet | Props_Wire.v |
| C11 Version filters | `DisPacket.filter_version` | list lemmas | Props_Wire.v |
| C12 Parsing untrusted bytes never panics and always terminates | all parsers, explicit `PPanic`; `SpecWire.short_signal`, `SpecPanic.overflowing_pdu` | `SafeP` combinators; offset calculus (`Skips`, `Pan`) and induction on the record lists; exact iff in both build modes | Props_Panic.v, Props_Wire.v |
| C13 Parse success implies at least one PDU, failure means the first PDU is bad | `DisPacket.parse` | induction on the input length | Props_Wire.v |
| C14 Parsing is insensitive to trailing bytes | all parsers | closure of an extension property under the combinators | Props_Wire.v |
| C15 How the length field frames a PDU | header, `skip_body`, body parsers; `SpecWire` | arithmetic; refutation by witness | Props_Wire.v |
| C16 Padding computation | `DisCommon`, `DisLists` | arithmetic, rewriting, list induction; refutations | Props_Records.v |
| C17 Variable datum record layout | `DisCommon`, `DisLists` | arithmetic, rewriting, list induction; refutations | Props_Records.v |
| C18 Variable parameter records are 16 octets and round-trip | `DisCommon`, `DisLists` | arithmetic, rewriting, list induction; refutations | Props_Records.v |
| C19 Descriptor records round-trip | `DisCommon`, `DisLists` | arithmetic, rewriting, list induction; refutations | Props_Records.v |
| C20 Record set / record specification round-trip | `DisCommon`, `DisLists` | arithmetic, rewriting, list induction; refutations | Props_Records.v |
| C21 DIS time stamp conversion | `DisText` (time stamps) | bit arithmetic on `Z` | Props_Text.v |
| C22 Entity type text form round-trips | `DisText` (decimal printer and parser) | induction over digits | Props_Text.v |
| C23 Variable-length unsigned integers (UVINT8/16/32) | `CdisBase`, `CdisSized`; `SpecCdis.reads_back`, `SpecCdisSized` | bit strings as `list bool`, cursor writer into a buffer; arithmetic | Props_CdisBits.v, Props_CdisSized.v |
| C24 Variable-length signed integers (SVINT12/13/14/16/24) | `CdisBase`, `CdisSized`; `SpecCdis.reads_back`, `SpecCdisSized` | bit strings as `list bool`, cursor writer into a buffer; arithmetic | Props_CdisBits.v, Props_CdisSized.v |
| C25 Bit-level fields round-trip at any bit offset | `CdisBase`, `CdisSized`; `SpecCdis.reads_back`, `SpecCdisSized` | bit strings as `list bool`, cursor writer into a buffer; arithmetic | Props_CdisBits.v |
| C26 C-DIS header round-trip | `CdisRecords`, `CdisBodies1/2`, `CdisIff`, `CdisPdu`; `SpecCdisPdu` | `BRT` combinators, list induction; refutations by construction; the Transmitter and Emission refutations hold for all such PDUs, from a lower bound on the bits that any reading takes (`L_CdisShort`) | Props_CdisPdu.v |
| C27 C-DIS PDU length accounting | `CdisRecords`, `CdisBodies1/2`, `CdisIff`, `CdisPdu`; `SpecCdisPdu` | `BRT` combinators, list induction; refutations by construction; the Transmitter and Emission refutations hold for all such PDUs, from a lower bound on the bits that any reading takes (`L_CdisShort`) | Props_CdisPdu.v |
| C28 C-DIS PDU round-trip | `CdisRecords`, `CdisBodies1/2`, `CdisIff`, `CdisPdu`; `SpecCdisPdu` | `BRT` combinators, list induction; refutations by construction; the Transmitter and Emission refutations hold for all such PDUs, from a lower bound on the bits that any reading takes (`L_CdisShort`) | Props_CdisPdu.v, Props_CdisRelay.v, Props_CdisShort.v |
| C29 Fields-present flags mirror the optional fields | `CdisRecords`, `CdisBodies1/2`, `CdisIff`, `CdisPdu`; `SpecCdisPdu` | `BRT` combinators, list induction; refutations by construction; the Transmitter and Emission refutations hold for all such PDUs, from a lower bound on the bits that any reading takes (`L_CdisShort`) | Props_CdisFlags.v, Props_CdisPdu.v |
| C30 C-DIS encoder full-update discipline | `CdisCodec1/2/3`; `SpecCodec` | invariants by induction over arbitrary histories of PDUs and times | Props_Codec.v, Props_CodecDec.v, Props_CodecTimeout.v |
| C31 Partial updates reconstruct the omitted static fields | `CdisCodec1/2/3`; `SpecCodec` | invariants by induction over arbitrary histories of PDUs and times | Props_CodecDec.v, Props_CodecPartial.v |
| C32 Codec state is per entity | `CdisCodec1/2/3`; `SpecCodec` | invariants by induction over arbitrary histories of PDUs and times | Props_CodecDec.v |
| C33 Stateless C-DIS codecs are lossless on integer content | `CdisCodec3`, `CdisPdu` | composition of encoder, writer, parser and decoder | Props_CodecSim.v |
| C34 The gateway encoder sends the supported PDUs and nothing else | `Gateway`; `SpecGateway`, `SpecGatewayEmpty` | induction over packets and histories; refutations where stale bits or wrong lengths are sent | Props_Gateway.v |
| C35 What the gateway decoder forwards | `Gateway`; `SpecGateway`, `SpecGatewayEmpty` | induction over packets and histories; refutations where stale bits or wrong lengths are sent | Props_Gateway.v, Props_GatewayEmpty.v |
| C36 Gateway encoder output and earlier packets | `Gateway`; `SpecGateway`, `SpecGatewayEmpty` | induction over packets and histories; refutations where stale bits or wrong lengths are sent | Props_Gateway.v |
| C37 Gateway statistics are exact | `Gateway` (stats.rs) | induction over event histories | Props_Stats.v |
| C38 Interaction endpoints | `DisPdu` endpoints; `SpecWire.endpoints` | case analysis against a separate table | Props_Wire.v |
| C39 Entity marking | `DisEntity` marking | list lemmas; refutations | Props_Records.v, Props_Text.v |
| C40 Header-only parsing agrees with full parsing | header, `skip_body`, body parsers; `SpecWire` | arithmetic; refutation by witness | Props_Wire.v |
| C41 The C-DIS encoder answers every PDU | `CdisCodec3.encode` | case analysis: exactly which PDUs make the encoder panic | Props_Codec.v |
| C42 Time stamps across C-DIS | `CdisCodec1` time stamps | integer arithmetic with bounds on float rounding | Props_CodecSim.v, Props_CodecTime.v |
| C43 Order and completeness of what the gateway forwards | `GatewaySys`; `SpecGatewaySys` | invariants of a labelled transition system over all schedules | Props_GatewaySys.v |
| C44 The gateway's statistics agree with the traffic | `GatewaySys`; `SpecGatewaySys` | invariants of a labelled transition system over all schedules | Props_GatewaySys.v |
| C45 The gateway does not deadlock | `GatewaySys`; `SpecGatewaySys` | progress argument (a well-founded measure on states) over all schedules; witnesses for the ways it goes down | Props_GatewayLive.v |
| C46 What ends the gateway | `GatewaySys`; `SpecGatewaySys` | progress argument (a well-founded measure on states) over all schedules; witnesses for the ways it goes down | Props_GatewayLive.v |
| C47 The content of a PDU survives C-DIS | `CdisCodec1/2/3`; `SpecContent`, `SpecBody` | composition of encode and decode relations field by field | Props_CodecContent.v, Props_CodecPartial.v |
| C48 Physical quantities keep their precision over C-DIS | `CdisCodec1`; `SpecFloatValue`, `SpecContent` | IEEE rounding analysis on `SpecFloat`, error bounds in `R` with Flocq | Props_CodecPrec.v |
| C49 Repeated translation does not drift | `CdisCodec1`; `SpecFloatValue`, `SpecContent` | IEEE rounding analysis on `SpecFloat`, error bounds in `R` with Flocq | Props_CodecDrift.v |
| C50 An uncompressed variable parameter is the DIS record | `CdisRecords` | bit-level computation for all values | Props_CdisVp.v |
| C51 In a release build serialization always returns | `DisPdu`, `DisPacket`; `SpecSize` | totality of every writer and length function by cases | Props_Total.v |
| C52 What reaches the DIS receiver across the C-DIS bit stream | `CdisCodec1-3`, `CdisPdu` composed; `SpecCross` | the encoder output fits the bit fields (`CrossFits`), so the bit round trip applies; what is read differs from what was sent only in the place, so the content theorems of C47 apply with the geodesy replaced by the place read; real-number bounds for the place; IFF apart (`SpecCrossIff`, `CrossIff`), since its beam changes on the wire, and Electromagnetic Emission (`SpecCrossEe`) | Props_Cross.v, Props_CrossEe.v, Props_CrossIff.v |
| C53 Debug and release builds do the same until the debug build stops | SpecModes.v (unharmed); the mode parameter of every model function | two runs side by side: every operation whose result depends on the mode either panics in Checked or gives the same (wag, pag, tag), lifted through the writers and parsers by structural tactics, and through the gateway LTS by induction over the schedule from its end | Props_Modes.v |
| C54 What was received can be relayed unchanged | SpecRelay.v (the sixteen conditions, relay_needs); Parsed.v and ParsedBodies.v (what each parser returns) | a logic of parser postconditions (Gives) shows for every body parser that what it returns is in range and of the shape the writer keeps, given the conditions; with the round trip of C09 and C53 the theorem follows by induction over the packet. Each condition has a witness packet, found to fail in both builds by computation | Props_Relay.v |
| C55 Every field of a PDU is at its place on the wire | SpecLayout.v (items of a layout, the tables of all records and PDU bodies, what a layout is sent as and what octets show it, the deviations); Layout.v (writers), LayoutP.v and LayoutP2.v (parsers); SpecLegible.v (when a table determines the PDU), LayoutC.v and LayoutC2.v (readers), LegibleG.v (results) | a logic of writers (Lays: if it does not panic it appends these octets) and one of parsers (Shows: the consumed octets show the table of the result, for any padding) are proved for every writer and parser; packets by induction. Conversely a logic of readers (Takes: octets that show the table of a legible record are read as that record, whatever the padding) gives layout_any_padding; that everything parsed is legible (LegibleG.v, the logic of C54) gives its converse, layout_read_exactly. Deviations are refuted on examples. | Props_Layout.v, Props_Legible.v |
| C56 The gateway runs as its configuration file says | GatewayConfig.v (ConfigSpec to Config, codec options, the calls on a socket); SpecConfig.v (mode words in any case, defaults, which member governs which PDU) | by cases on every option; lower-casing a text gives a mode word exactly when the text spells it, by induction on the text, from the Unicode fact that no character outside ASCII lowers to one of the letters of these words | Props_Config.v |
| C57 Places keep their position when converted between geocentric and geodetic coordinates | Geodesy.v (utils.rs in real arithmetic, constants as in the source); SpecGeodesy.v (WGS-84 ellipsoid, perpendicular, distance); SpecPlace.v (places of PDUs) | calculus on the meridian ellipse: derivatives of the foot point and of the radius of curvature, mean value theorem for one Newton step, algebraic bounds for the first estimate in both of its branches, tangent lines and strict convexity for the other direction; Lipschitz bounds and C47 for the codec | Props_Geodesy.v, Props_GeodesyCodec.v |
| C58 Builders build what they were asked | BuilderCalls.v (one constructor per method), Builders.v (what each method assigns, translated method by method from the sources), SpecBuilders.v (which member a method names, from its name), Defaults.v (the 52 default bodies) | fold over the call list: one general lemma for last call wins, one for lists, applied to every member of every structure; explicit call lists for reachability; invariant for record sets; the defaults by cases through C09 | Props_Builders.v, Props_Defaults.v |
| C59 IFF status records keep their subfields on the wire | `IffWords` (readers and writers of 13 records), `SpecIffWords` (bit ranges) | general lemmas on words made of disjoint bit ranges (bit by bit, any width), instantiated for each record; exact iff for the round trip; the words kept in `DisIff` are shown to be these records | Props_IffWords.v |
| C60 C-DIS PDUs that were received can be passed on | `SpecCdisRelay` (what keeps a body from being passed on; hops) over the C-DIS readers and writers of C28 | a second set of reader invariants (whatever a reader returns fits the writer, up to [passes_on]) for every body, composed with the packet round trip; induction on the hops; octets as witnesses for the refutations | Props_CdisRelay.v |
| C61 The gateway's web page shows numbers that were true | `GatewaySite` (panels, channel, page next to the gateway LTS of C43) and `SpecSite` | invariant: every queued message is a snapshot of a moment, moments ordered, none before what is shown; sums over the events of the codecs at rest | Props_Site.v |

Where the code does not have the property one would expect, `properties.jsonl`
states what the code does do (for all inputs), a theorem proves that, and a
theorem with the suffix `_refuted` proves that the stronger claim is false.

## Trusted base

* Coq 8.16.1's kernel (with `vm_compute`), re-checked by `coqchk`.
* The model: that the Gallina functions compute what the cited Rust lines do.
  Nothing in the sandbox can compile the Rust code, so this link rests on
  reading; the comments with file and line numbers are there to audit it.
* The specification files `Spec*.v` and the theorem statements.
* Axioms: only the standard library's, only where real numbers occur. What
  `Print Assumptions` lists for each theorem of the manifest:

* **Closed under the global context** (289 theorems): `C01_crossref_refuted`, `C01_crossref_rows`, `C01_lossless`, `C02_decoded_values_stable`, `C02_named_values_survive`, `C02_unspecified_alias`, `C03_decode_encode`, `C03_encode_decode`, `C03_full_word`, `C03_oversized_value_refuted`, `C03_wide_flag_refuted`, `C04_future_version_status_refuted`, `C04_header_round_trip`, `C05_status_parse_value`, `C05_status_parse_write`, `C05_status_write_parse`, `C06_attribute_padding_refuted`, `C06_fitting_pdus_are_sized`, `C06_serialize_accounting`, `C06_serialize_exact_refuted`, `C06_serialize_exact_types`, `C07_insufficient_buffer`, `C07_insufficient_true_length`, `C07_insufficient_true_length_refuted`, `C08_family_unique`, `C08_finalize`, `C09_exact`, `C09_parse_serialize`, `C09_parse_serialize_finalized`, `C09_parse_serialize_refuted`, `C10_parse_packet`, `C10_parse_packet_refuted`, `C11_version_filter`, `C12_checked_panics_iff`, `C12_datagram_panics_iff`, `C12_parse_no_panic_refuted`, `C12_parse_overflow_panic_refuted`, `C12_parse_panic_types`, `C12_parse_panics_iff`, `C12_signal_panics_everywhere`, `C13_parse_error_iff`, `C13_parse_longest_run`, `C14_parse_append`, `C14_trailing_octets`, `C15_framing_exact`, `C15_framing_other`, `C15_framing_refuted`, `C15_length_field_ignored`, `C16_padding`, `C16_zero_alignment`, `C17_parse_standard`, `C17_reported_size_refuted`, `C17_variable_datum_aligned`, `C17_variable_datum_refuted`, `C18_round_trip`, `C18_separation_refuted`, `C18_separation_value_refuted`, `C18_sixteen_octets`, `C19_detonation_descriptor`, `C19_explosion_refuted`, `C19_fire_descriptor`, `C20_record_set`, `C20_record_set_refuted`, `C20_record_specification`, `C21_nanoseconds_refuted`, `C21_raw_round_trip`, `C21_seconds_refuted`, `C21_units_round_trip`, `C22_aggregate_type_accepts`, `C22_aggregate_type_round_trip`, `C22_entity_id_text`, `C22_entity_type_accepts`, `C22_entity_type_injective`, `C22_entity_type_round_trip`, `C38_emission_receiver`, `C38_endpoints`, `C39_aggregate_marking`, `C39_entity_marking`, `C39_from_str`, `C39_long_marking`, `C39_parse`, `C39_parse_stable`, `C39_parsed_marking_too_long_refuted`, `C39_trailing_punctuation_refuted`, `C40_agrees_with_full_parsing`, `C40_headers_of_packet`, `C40_multiple_header_error_refuted`, `C40_parse_header`, `C40_parse_multiple_header`, `adjacent_fields`, `bad_width_panics`, `builders_capabilities_refuted`, `builders_emission`, `builders_emission_reach_all`, `builders_entity`, `builders_entity_reach_all`, `builders_header`, `builders_header_length_refuted`, `builders_iff`, `builders_iff_reach_all`, `builders_iff_words`, `builders_iff_words_reach_all`, `builders_lists`, `builders_lists_reach_all`, `builders_logistics`, `builders_logistics_reach_all`, `builders_radio`, `builders_radio_reach_all`, `builders_record_set`, `builders_record_set_refuted`, `builders_record_set_uniform`, `builders_records`, `builders_records_reach_all`, `builders_simman`, `builders_simman_reach_all`, `builders_status`, `builders_status_reach_all`, `builders_warfare`, `builders_warfare_reach_all`, `builds_agree_cserialize`, `builds_agree_decode`, `builds_agree_finalize`, `builds_agree_gateway`, `builds_agree_parse`, `builds_agree_parse_more`, `builds_agree_seconds`, `builds_agree_serialize`, `builds_differ_serialize_refuted`, `cdis_altitude_read`, `cdis_body_bits`, `cdis_body_bits_exact`, `cdis_body_bits_exact_types`, `cdis_body_bits_refuted`, `cdis_capabilities_refuted`, `cdis_carried_fields_stateless`, `cdis_compressed_parameter`, `cdis_coordinates_stable_refuted`, `cdis_decoder_independence`, `cdis_emission_crosses`, `cdis_emission_never`, `cdis_emission_numbers_refuted`, `cdis_emission_refuted`, `cdis_encoder_independence`, `cdis_encoder_marking_panic`, `cdis_encoder_survives`, `cdis_finalized_length`, `cdis_fire_descriptor_refuted`, `cdis_flags_table`, `cdis_full_update_discipline`, `cdis_full_update_stateless`, `cdis_header_any`, `cdis_header_roundtrip`, `cdis_idle_list_flag`, `cdis_iff_navigation_refuted`, `cdis_iff_parameters_refuted`, `cdis_iff_partial_crosses_refuted`, `cdis_iff_partial_lost`, `cdis_iff_system`, `cdis_location_refuted`, `cdis_lone_group_member_refuted`, `cdis_long_header_refuted`, `cdis_marking_content`, `cdis_new_beam_parameters_refuted`, `cdis_orientation_stable_refuted`, `cdis_other_algorithm_refuted`, `cdis_packet_roundtrip`, `cdis_parse_total`, `cdis_partial_emission_content`, `cdis_partial_update_iff`, `cdis_partial_update_iff_refuted`, `cdis_partial_update_inherits`, `cdis_partial_update_marking`, `cdis_partial_update_marking_refuted`, `cdis_partial_update_relative_location_refuted`, `cdis_partial_update_unknown`, `cdis_pdu_roundtrip`, `cdis_pdu_roundtrip_exact`, `cdis_presence_flags`, `cdis_relay_emission_refuted`, `cdis_relay_iff_layer3_refuted`, `cdis_relay_marking_refuted`, `cdis_relay_transmitter_refuted`, `cdis_signal_content`, `cdis_signal_emission_bits_refuted`, `cdis_simman_lossless`, `cdis_simman_narrowing_refuted`, `cdis_stateless_types`, `cdis_static_fields_end_to_end`, `cdis_timestamp_flag`, `cdis_timestamp_refuted`, `cdis_transmitter_never`, `cdis_transmitter_refuted`, `cdis_turning_stable_refuted`, `cdis_uncompressed_articulation_refuted`, `cdis_uncompressed_parameter`, `cdis_uncompressed_unknown_refuted`, `config_federation`, `config_loopback_refuted`, `config_outcome`, `config_sockets`, `config_uri_refuted`, `defaults_for_every_type`, `empty_pdus_say_nothing`, `gateway_aggregates`, `gateway_aggregates_initial`, `gateway_can_deliver`, `gateway_comes_to_rest`, `gateway_compression`, `gateway_connects_nothing`, `gateway_counts`, `gateway_decoder_drops`, `gateway_decoder_refuted`, `gateway_dis_output`, `gateway_down_causes`, `gateway_encoder_delivers`, `gateway_encoder_delivers_refuted`, `gateway_encoder_fresh`, `gateway_encoder_fresh_refuted`, `gateway_encoder_octets`, `gateway_encoder_simman`, `gateway_encoder_survives`, `gateway_encoder_types`, `gateway_events`, `gateway_no_deadlock`, `gateway_order`, `gateway_order_at_rest`, `gateway_overrun`, `gateway_settles`, `gateway_statistics`, `gateway_survives`, `gateway_survives_refuted`, `gateway_totals`, `iff_altitude_word_on_the_wire`, `iff_change_options_on_the_wire`, `iff_constant_bits_refuted`, `iff_dap_word_stuck_bit`, `iff_full_update_flag_refuted`, `iff_information_layers_on_the_wire`, `iff_levels_word_stuck_bit`, `iff_m5i_word_on_the_wire`, `iff_m5t_word_on_the_wire`, `iff_message_formats_on_the_wire`, `iff_mode1_code_on_the_wire`, `iff_msi_word_stuck_bit`, `iff_mst_word_on_the_wire`, `iff_supplemental_data_on_the_wire`, `iff_system_status_on_the_wire`, `iff_words_are_the_records`, `layout_any_padding`, `layout_read`, `layout_read_exactly`, `layout_read_refuted`, `layout_unambiguous`, `layout_understood`, `layout_written`, `layout_written_refuted`, `relay_needs_each_refuted`, `relay_parses_back`, `relay_serializes`, `release_serialize_example`, `release_serialize_long_marking_refuted`, `release_serialize_total`, `signed_field`, `site_at_rest`, `site_boxes_grow`, `site_catches_up`, `site_encoded_refuted`, `site_encoded_shrinks_refuted`, `site_fresh`, `site_load`, `site_onward`, `site_shows`, `svint12_roundtrip`, `svint13_roundtrip`, `svint14_roundtrip`, `svint16_roundtrip`, `svint24_roundtrip`, `svint24_roundtrip_refuted`, `svint_out_of_range_refuted`, `svint_overwritten`, `unsigned_field`, `untouched_action_response_r_refuted`, `untouched_builders_read_back`, `untouched_builders_write_zeros`, `untouched_entity_state_capabilities`, `uvint16_roundtrip`, `uvint32_roundtrip`, `uvint8_roundtrip`, `uvint_overwritten`
* **`ClassicalDedekindReals.sig_forall_dec`, `FunctionalExtensionality.functional_extensionality_dep`** (11 theorems): `cdis_acceleration_refuted`, `cdis_beam_refuted`, `cdis_coordinates_refuted`, `cdis_designator_crosses_refuted`, `cdis_fire_crosses_refuted`, `cdis_force_refuted`, `cdis_frequency_refuted`, `cdis_parameter_refuted`, `cdis_power_refuted`, `cdis_pulse_refuted`, `cdis_transmitter_crosses_refuted`
* **`ClassicalDedekindReals.sig_forall_dec`, `ClassicalDedekindReals.sig_not_dec`, `FunctionalExtensionality.functional_extensionality_dep`** (1 theorems): `geodesy_place`
* **`ClassicalDedekindReals.sig_forall_dec`, `ClassicalDedekindReals.sig_not_dec`, `Classical_Prop.classic`, `FunctionalExtensionality.functional_extensionality_dep`** (60 theorems): `cdis_acceleration_precision`, `cdis_acceleration_stable`, `cdis_bandwidth_precision`, `cdis_beam_precision`, `cdis_beam_stable`, `cdis_changed_beam_arrives`, `cdis_collision_content`, `cdis_collision_crosses`, `cdis_coordinates_precision`, `cdis_designator_aim`, `cdis_designator_crosses`, `cdis_designator_full_crosses`, `cdis_designator_laser`, `cdis_detonation_content`, `cdis_detonation_crosses`, `cdis_emission_content`, `cdis_emission_end_to_end`, `cdis_emission_precision`, `cdis_entity_state_crosses`, `cdis_entity_state_full_crosses`, `cdis_entity_state_identity`, `cdis_entity_state_movement`, `cdis_fire_content`, `cdis_fire_crosses`, `cdis_flags_read`, `cdis_force_precision`, `cdis_frequency_precision`, `cdis_full_update_timing`, `cdis_hertz_precision`, `cdis_hertz_stable`, `cdis_iff_content`, `cdis_iff_crosses`, `cdis_iff_delivers`, `cdis_interrogation_precision`, `cdis_mass_precision`, `cdis_orientation_drift`, `cdis_orientation_precision`, `cdis_parameter_precision`, `cdis_pattern_precision`, `cdis_pdu_flags_read`, `cdis_pdu_roundtrip_iff`, `cdis_place_crosses_refuted`, `cdis_place_in_metres`, `cdis_receiver_content`, `cdis_receiver_crosses`, `cdis_relay`, `cdis_signal_crosses`, `cdis_timestamp_trip`, `cdis_transmitter_crosses`, `cdis_transmitter_full_crosses`, `cdis_transmitter_radio`, `cdis_transmitter_transmission`, `cdis_turning_precision`, `cdis_velocity_precision`, `cdis_velocity_stable`, `cdis_wire_delivers`, `cdis_wire_header`, `geodesy_back_and_there`, `geodesy_symmetry`, `geodesy_there_and_back`

No axiom, `Variable`, `Hypothesis` outside a section, `Admitted`, functor or
module type is introduced.

## Testing the theorems against wrong programs

`seeded/LOG.jsonl` records edits of the model (in a scratch copy) of the kind a
bug in the program would make, and the proofs that then failed. Most are made by
a generator that picks a definition of the model and changes a constant, a
field, an operator, a branch or a width; others are written by hand. A mutant
that no proof caught led to a new or tighter theorem, or is listed as equivalent
(the edited program behaves the same) or as changing a behaviour the property
list does not mention.

## Defects found in the code

DIS:
1. Variable datum: the padding is computed in bits as if octets, so datums whose
   length is not a multiple of 64 bits come back with trailing octets (C17).
2. Separation variable parameter: the parser misses one pad octet (C18).
3. Explosion descriptor: the parser does not skip the pad field (C19).
4. Record sets: u16 overflow in the length product panics in debug builds (C20).
5. Declared body lengths are wrong for Fire, Detonation, Collision,
   ServiceRequest, ResupplyOffer/Received/Cancel, IsPartOf, RecordR, IFF and
   AggregateState with silent systems (C06, C08).
6. The size `serialize` returns is wrong for EntityState, TransferOwnership,
   RecordR, Transmitter, IsGroupOf and Mode S transponder IFF (C06).
7. Signal: the padding of the data is not skipped; a short declared length makes
   the parser panic (C12, C15).
8. Attribute, variable transmitter parameters and IFF data records: padding is
   absorbed into the data (C09, C16).
9. Markings that are too long panic, and a trailing character that is not
   alphanumeric is lost (C39). Octets of a received marking that are not UTF-8
   become U+FFFD, three octets each: relaying such a PDU panics in a debug build
   and exhausts the memory in a release build (C39, C51).
10. Entity capabilities do not survive for most entity kinds (C09).
11. Time stamp constants (C21); 12. SVINT24's minimum value (C24).
13. A PDU with protocol version 0 or above 7 is written without a status (C04).
14. The parser ignores the header's length when it splits a packet (C15).
15. ActionResponse-R is parsed as ActionResponse (C09).
16. Counts above 255 are truncated (C06, C09).
17. The type of an `Other` body is always `Other` (C08).
18. Underwater acoustic APA index and high configuration bits are lost; IFF
    DAP source, Mode S interrogator status and levels always have one bit set;
    the crypto key's high bit, major-modulation detail and empty modulation
    parameters of transmitters are lost (C09).
19. IFF with an unknown system type consumes no basic data (C09).
20. `parse_multiple_header` reports the wrong error for a cut body (C40).
21. Cross-reference enumeration rows lose their value; oversized bit-field
    values overwrite their neighbours (C01, C03).

C-DIS:
22. Beam data writes the azimuth centre four times (C28).
23. World coordinates are not scaled on writing but divided on reading; several
    scale constants use XOR where a power was meant (C28, C48).
24. 'Y' and lower-case letters in a marking become '9' (C28).
25. The uncompressed parameter value is written under the compressed flag;
    an uncompressed articulated part loses its value (C28, C50).
26. Simulation-management PDUs declare 5 bits for each empty datum list; Signal,
    EE, Transmitter and IFF declare wrong lengths (C27).
27. A lone member of a pair of optional fields is written though its presence
    bit is 0 (C29). 28. Collision types other than elastic become 0 (C28).
29. EE: the system number is never written but always read; track/jam indices
    are written in 6 bits and read from 4 (C28).
30. Transmitter: the VTP count is always read, but written only if there are
    VTPs (C28). 31. IFF layer lengths, record counts, layer-5 bits (C27, C28).

Codec:
32. The decoder never updates a cached marking; partial updates of an unknown
    entity decode to default values (C31).
33. Transmitter relative antenna location, EE parameters of new beams, jamming
    technique and track targets are lost in partial updates (C31, C47).
34. The IFF encoder never sets the full-update flag; the IFF decoder loses the
    fundamental parameters 2-6, the system id and the navigation source (C47).
35. Negative floats are not scaled; exponents and mantissas overflow their
    fields: accelerations, frequencies at or above 13.1 GHz, forces, articulation
    values, ERP, pulse fields (C48).
36. Time stamps later than about 60.6 s past the hour arrive modulo 60.58 s
    (C42).
37. Orientations, angular rates and centimetre vectors drift by one step on each
    further translation (C49).
38. Dead-reckoning algorithm 0 loses velocities; encode panics on some markings
    (C41, C47).
39. StopFreeze reasons from 16 and behaviour bits from 8 are lost (C33).

Gateway:
40. The decoder's type filter is inverted: C-DIS PDUs are counted as
    unimplemented and dropped, all others become empty DIS PDUs, so two gateways
    connect nothing (C35).
41. Output is taken by declared lengths: ghost PDUs, stale bits of earlier PDUs,
    empty datagrams (C34, C36).
42. The event channel's `expect` panics once 50 events wait: one datagram of 50
    header-only PDUs can end the gateway (C46).
43. After a reader socket error the codec task spins on a closed channel; after
    a writer error the codec panics on its next datagram (C46).
44. Configuration: addresses that do not parse panic; see also 53 to 55.
45. `Attribute`: the length of a record set, and so `pdu_length()`, leaves out
    the padding of the records, which is written (`C06_attribute_padding_refuted`).
46. A variable datum of 8 KiB or more is written whole, but the number of bits is
    computed in 16 bits: the size returned is wrong, and the datum cannot be read back.
47. Non-audio `Signal`s lose their sample rate and number of samples over C-DIS
    (`C47_cdis_signal_content`).
48. Electromagnetic Emission, partial update: a beam that was not in the last full update is announced without parameters or shape (the index is absent), so the receiver gets zeros (C31, `cdis_new_beam_parameters_refuted`); and the jamming technique of every beam and the emitter and beam numbers of every target are decoded to zero instead of their last values (C47, `cdis_partial_emission_content`).
49. Across codec and bit stream: a Fire or Detonation with a munition quantity but no rate of fire (or the reverse), a Designator with any dead reckoning algorithm but 4, 5, 8 and 9, and a Transmitter without variable transmitter parameters are encoded to C-DIS PDUs that are not read back, and spoil what follows in the datagram; every place arrives with its latitude shrunk to a seventeenth and its longitude to a ninth (C52, `cdis_fire_crosses_refuted`, `cdis_designator_crosses_refuted`, `cdis_transmitter_crosses_refuted`, `cdis_place_crosses_refuted`)
50. A relay (parse, then serialize) does not preserve: non-zero header padding, the status of version 8 and later, variable datums that are not whole 64-bit words, separation parameters, explosion descriptors, Entity State capabilities before version 6, attribute records, variable transmitter parameters and IFF data records that are not padded by the sender, additional passive activity parameters, IFF layers 3 and 4 of an unknown system type and aircraft identifications that are not ASCII; and it cannot send on (never returns or panics) an entity whose marking contained invalid UTF-8, which the parser expands to three octets a piece (C54, `relay_needs_each_refuted`).
51. Writer and the IEEE 1278.1 tables (C55): is-part-of lacks the eight octets of the part's entity type; record-R has four octets of event type instead of two; underwater acoustic emitter systems give their length in octets, not words, and an additional parameter's number and status are combined with `&`; Mode S transponder basic data have 21 octets instead of 24; an emitter system of more than 255 words wraps instead of saying 0; signal numbers of more than 14 bits run into the class; a variable datum that is not whole 64-bit words gets eight times its padding; a status is dropped before version 7, capabilities outside 6 and 7 are sent as zero.
52. Reader and the tables (C55): the padding octet of a separation parameter is not read and an explosion descriptor is read as 2 + 4 octets; padding after signal data is left for the next PDU; padding of attribute, transmitter parameter and IFF records becomes part of their fields; IFF layers 3 and 4 of an unknown system type consume none of their basic data; is-part-of, record-R and Mode S transponders as in 51.
53. Configuration (C56): `UdpEndpoint::try_from` parses `address` from `interface` (config.rs:144), so `uri` is never read; every endpoint sends to its own interface address, and the reader drops datagrams from there. `ttl` is shown but never set (broadcast uses 1), `block_own_socket` and `block_host` are unused, `hbt_espdu_kind_emitter`, `hbt_stationary` and `hbt_timeout_mplier` never reach the codec. In multicast mode the socket is never bound, and the group joined is the interface address.
54. The two sample configurations put `update_mode` below the `[metadata]` header, where TOML makes it a member of the metadata table that nothing reads: the gateway then runs in full update mode whatever it says. They also say `block_own_host` where the structure has `block_own_socket`. (By reading; TOML is not modelled.)
55. `main.rs:118` prints `config.use_guise`, a field that `Config` does not have: the gateway crate does not compile at this commit. (By reading.)
56. `EntityStateBuilder::with_capabilities_flags` makes land platform capabilities whatever the entity is; built so, an entity of another kind does not come back equal from a round trip (C58 `builders_capabilities_refuted`).
57. `PduHeader::with_length` overflows for bodies above 65523 octets (C58 `builders_header_length_refuted`), and `RecordSet::with_record` lets records of different lengths into one set (documented there; C58 `builders_record_set_refuted`).
58. `impl From<WorldCoordinates> for Location` (cdis-assemble/src/records/model.rs:977) converts the scaled latitude and longitude as if they were radians, and ignores the altitude's unit (TODOs in the source). The codec does not use it. (By reading.)
59. A partial IFF update leaves out the system identification, and without its type the reader takes neither interrogator nor transponder basic data from the wire: a partial update with layer 3 or 4 does not arrive (C52 `cdis_iff_partial_crosses_refuted`, `cdis_iff_partial_lost`).
60. The number of an emitter system is never written to the C-DIS bit stream, although the reader reads one: emissions that differ only in the numbers of their systems have the same bits (C52 `cdis_emission_numbers_refuted`).
61. The readers of the Mode S interrogator status, the Mode S levels present and the downlink source test a constant (`BIT_5_IN_BYTE & BIT_5_IN_BYTE`, `BIT_4_IN_BYTE & BIT_4_IN_BYTE`) instead of the record: a malfunction, level 4 and a data record for the track angle rate are always read (C59 `iff_constant_bits_refuted`).
62. A relay of C-DIS PDUs loses an Entity State whose five-bit marking has a Y, every Emission with an emitter system, a Transmitter without variable parameters that is followed by another PDU, and an IFF layer 3 under an unknown system type (C60 `cdis_relay_*_refuted`).
63. The encoder panel of the gateway's page shows as PDUs encoded the received PDUs less the rejected ones, but rejected PDUs are never counted as received: the box is too low by the number of rejected PDUs, and goes down when a PDU is rejected (C61 `site_encoded_refuted`, `site_encoded_shrinks_refuted`).
64. The number of a variable-width integer is a public field, its size is not: a program that assigns the number keeps the old size, and the number is cut to it on the wire; a far negative number in a size of 3, 5, 7, 9 or 13 bits panics in a debug build. `SVINT12::from`, `SVINT13::from` and `SVINT14::from` accept any i16 and choose the largest size, which cuts what does not fit (C23 `uvint_overwritten`, C24 `svint_overwritten`, `svint_out_of_range_refuted`).
65. What an untouched entity state builder builds comes back from a version 7 PDU only if the default of the generated `EntityCapabilities` is Unspecified (the reader gives nothing else for the entity kind Other); its table is not in the repository, and should `from(0)` give the first row (land platform), it does not come back. An untouched Action Response-R comes back as an Action Response (C58 `untouched_entity_state_capabilities`, `untouched_action_response_r_refuted`).

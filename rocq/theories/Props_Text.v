(** * Properties: Text

    Theorems only: each is closed by the lemma of the same name in L_Text.v. *)
From Coq Require Import ZArith List Lia Bool String Ascii.
From Verif Require Import Base DisCommon DisEntity DisText L_Text.
Import ListNotations. Open Scope Z_scope.

(** C21. Reading a raw time stamp: the least significant bit says absolute, the upper 31 bits are the units; converting back
gives the raw value, for all 2^32 values. *)
Theorem C21_raw_round_trip : forall v, u32 v ->
  ts_units (timestamp_from_raw v) = v / 2 /\ (ts_absolute (timestamp_from_raw v) = true <-> v mod 2 = 1) /\
  raw_from_timestamp (timestamp_from_raw v) = v.
Proof. exact C21_raw_round_trip_pf. Qed.
Print Assumptions C21_raw_round_trip.

(** C21. And the other way, for every number of units that fits 31 bits: the raw value is even exactly for relative time stamps and both units and kind come back. *)
Theorem C21_units_round_trip : forall u n, 0 <= u < 2 ^ 31 ->
  raw_from_timestamp (Absolute u n) = 2 * u + 1 /\ raw_from_timestamp (Relative u n) = 2 * u /\
  timestamp_from_raw (raw_from_timestamp (new_absolute_from_units u)) = new_absolute_from_units u /\
  timestamp_from_raw (raw_from_timestamp (new_relative_from_units u)) = new_relative_from_units u.
Proof. exact C21_units_round_trip_pf. Qed.
Print Assumptions C21_units_round_trip.

(** C21. Refutation of the nanosecond field: one unit (3600 s / 2^31, about 1676 ns) is converted to 128571432, and every time
stamp of 34 units and more (about 57 microseconds past the hour) to the largest u32. *)
Theorem C21_nanoseconds_refuted : ts_nanos (timestamp_from_raw 2) = 128571432 /\
  forall v, u32 v -> 68 <= v -> ts_nanos (timestamp_from_raw v) = 4294967295.
Proof. exact C21_nanoseconds_refuted_pf. Qed.
Print Assumptions C21_nanoseconds_refuted.

(** C21. Refutation of the conversion from seconds: half an hour is 14 units instead of 2^30, and a count of seconds that passes 4294 panics in a debug build. *)
Theorem C21_seconds_refuted : new_absolute_from_secs Checked 1800 = Some (Absolute 14 1800000000) /\
  forall s, 4294 < s -> new_absolute_from_secs Checked s = None.
Proof. exact C21_seconds_refuted_pf. Qed.
Print Assumptions C21_seconds_refuted.

Example C21_ex : ts_units (timestamp_from_raw 0xFFFFFFFF) = 0x7FFFFFFF /\ ts_absolute (timestamp_from_raw 0xFFFFFFFE) = false.
Proof. split; vm_compute; reflexivity. Qed.

(** C22. The text form of an entity type is its seven fields as decimal numerals separated by colons, and parsing the text returns the entity type. *)
Theorem C22_entity_type_round_trip : forall t, wf_EntityType t ->
  seven_numerals (et_kind t) (et_domain t) (et_country t) (et_category t) (et_subcategory t) (et_specific t) (et_extra t) (entity_type_to_string t) /\
  entity_type_from_str (entity_type_to_string t) = Some t.
Proof. exact C22_entity_type_round_trip_pf. Qed.
Print Assumptions C22_entity_type_round_trip.

(** C22. Parsing accepts exactly the texts of seven colon-separated numerals whose values fit the fields, whatever the text. *)
Theorem C22_entity_type_accepts : forall s t, entity_type_from_str s = Some t <->
  seven_numerals (et_kind t) (et_domain t) (et_country t) (et_category t) (et_subcategory t) (et_specific t) (et_extra t) s /\
  et_kind t <= 255 /\ et_domain t <= 255 /\ et_country t <= 65535 /\ et_category t <= 255 /\ et_subcategory t <= 255 /\ et_specific t <= 255 /\ et_extra t <= 255.
Proof. exact C22_entity_type_accepts_pf. Qed.
Print Assumptions C22_entity_type_accepts.

(** C22. Every parsed entity type is in range, and two entity types have the same text only if they are equal. *)
Theorem C22_entity_type_injective : (forall s t, entity_type_from_str s = Some t -> wf_EntityType t) /\
  (forall t1 t2, wf_EntityType t1 -> wf_EntityType t2 -> entity_type_to_string t1 = entity_type_to_string t2 -> t1 = t2).
Proof. exact C22_entity_type_injective_pf. Qed.
Print Assumptions C22_entity_type_injective.

(** C22. The same for aggregate types. *)
Theorem C22_aggregate_type_round_trip : forall t, wf_AggregateType t ->
  seven_numerals (ag_kind t) (ag_domain t) (ag_country t) (ag_category t) (ag_subcategory t) (ag_specific t) (ag_extra t) (aggregate_type_to_string t) /\
  aggregate_type_from_str (aggregate_type_to_string t) = Some t.
Proof. exact C22_aggregate_type_round_trip_pf. Qed.
Print Assumptions C22_aggregate_type_round_trip.

(** C22. Acceptance for aggregate types. *)
Theorem C22_aggregate_type_accepts : forall s t, aggregate_type_from_str s = Some t <->
  seven_numerals (ag_kind t) (ag_domain t) (ag_country t) (ag_category t) (ag_subcategory t) (ag_specific t) (ag_extra t) s /\
  ag_kind t <= 255 /\ ag_domain t <= 255 /\ ag_country t <= 65535 /\ ag_category t <= 255 /\ ag_subcategory t <= 255 /\ ag_specific t <= 255 /\ ag_extra t <= 255.
Proof. exact C22_aggregate_type_accepts_pf. Qed.
Print Assumptions C22_aggregate_type_accepts.

(** C22. The text form of an entity identifier is its site, application and entity numbers as decimal numerals joined by colons, and two identifiers have the
same text only if they are equal: it can serve as a key. *)
Theorem C22_entity_id_text : (forall e, wf_EntityId e -> exists s a n, entity_id_to_string e = join [s; a; n] /\
    numeral (sa_site (ei_addr e)) s /\ numeral (sa_app (ei_addr e)) a /\ numeral (ei_id e) n) /\
  (forall e1 e2, wf_EntityId e1 -> wf_EntityId e2 -> entity_id_to_string e1 = entity_id_to_string e2 -> e1 = e2).
Proof. exact C22_entity_id_text_pf. Qed.
Print Assumptions C22_entity_id_text.

(** C39. A marking made from text by [from_str] is never too long for its record: serialisation of it does not fail; longer texts are rejected. *)
Theorem C39_from_str : forall n s, 0 <= n ->
  (zlen s <= n -> exists x bs, marking_from_str n s = Some x /\ mk_string x = s /\ w_marking n x = WOk bs (n + 1) /\ zlen bs = n + 1) /\
  (n < zlen s -> marking_from_str n s = None).
Proof. exact C39_from_str_pf. Qed.
Print Assumptions C39_from_str.

Example C22_ex : entity_id_to_string (MkEntityId (MkSimulationAddress 1 23) 65535) = octets "1:23:65535" /\
  entity_type_to_string (MkEntityType 1 2 225 1 3 0 255) = octets "1:2:225:1:3:0:255" /\
  entity_type_from_str (octets "1:2:225:1:3:0:255") = Some (MkEntityType 1 2 225 1 3 0 255) /\
  entity_type_from_str (octets "+1:002:225:1:3:0:255") = Some (MkEntityType 1 2 225 1 3 0 255) /\
  entity_type_from_str (octets "1:2:225:1:3:0:256") = None /\ entity_type_from_str (octets "1:2:225:1:3:0") = None /\
  entity_type_from_str (octets "1:2:225:1:3:0:") = None /\ entity_type_from_str (octets "1:2:225:1:3:0:-1") = None.
Proof. repeat split; vm_compute; reflexivity. Qed.

(** * Text forms and time stamps *)
From Coq Require Import ZArith List Lia Bool.
From Verif Require Import Base DisCommon DisEntity.
Import ListNotations. Open Scope Z_scope.

(** ** Time stamps *)
(** f32 arithmetic on nonnegative integers: [rne24 n] is [n as f32] (and the rounding of an exact integer product):
    the nearest number with a 24 bit significand, ties to even. All f32 values in this part of the code are integers
    except quotients, for which see [fdiv_trunc]. *)
Definition rne (n d : Z) : Z := (* nearest integer to n/d, ties to even *)
  let q := n / d in let r := n mod d in
  if 2 * r <? d then q else if d <? 2 * r then q + 1 else if Z.even q then q else q + 1.
Definition rne24 (n : Z) : Z :=
  if n <? 16777216 then n else let e := Z.log2 n - 23 in rne n (2 ^ e) * 2 ^ e.
(** [(a / b) as u32] for f32 integers a, b > 0 with a/b < 2^24: the quotient rounded to 24 significant bits, then truncated;
    the exponent is found by scaling the quotient into [2^23, 2^24) *)
Definition fdiv_trunc (a b : Z) : Z :=
  if a =? 0 then 0 else
  let e0 := 24 - (Z.log2 a - Z.log2 b) in
  let e := if a * 2 ^ e0 <? b * 16777216 then e0 else e0 - 1 in
  rne (a * 2 ^ e) b / 2 ^ e.
(** float to u32 conversion saturates *)
Definition sat32 (n : Z) : Z := Z.min n 4294967295.

(* constants.rs:20-22. [(2^31) - 1] is 28 in Rust: [^] is exclusive or *)
Definition NANOSECONDS_PER_HOUR : Z := 3600 * 1000000.
Definition TIME_UNITS_PER_HOUR : Z := Z.lxor 2 31 - 1.
(** the f32 quotient of the two, an integer with a 24 bit significand times 8 *)
Definition NANOSECONDS_PER_TIME_UNIT : Z :=
  rne (rne24 NANOSECONDS_PER_HOUR) (8 * rne24 TIME_UNITS_PER_HOUR) * 8.

(* common/model.rs:1110-1113 *)
Inductive DisTimeStamp := Absolute (units nanos : Z) | Relative (units nanos : Z).
Definition ts_units (t : DisTimeStamp) := match t with Absolute u _ | Relative u _ => u end.
Definition ts_nanos (t : DisTimeStamp) := match t with Absolute _ n | Relative _ n => n end.
Definition ts_absolute (t : DisTimeStamp) : bool := match t with Absolute _ _ => true | Relative _ _ => false end.
(* common/model.rs:1148-1160 *)
Definition seconds_to_nanoseconds (m : mode) (s : Z) : option Z :=
  let r := s * 1000000 in
  if r <? 4294967296 then Some r else match m with Checked => None | Wrapping => Some (r mod 4294967296) end.
Definition nanoseconds_to_dis_time_units (n : Z) : Z := fdiv_trunc (rne24 n) NANOSECONDS_PER_TIME_UNIT.
Definition dis_time_units_to_nanoseconds (u : Z) : Z := sat32 (rne24 (rne24 u * NANOSECONDS_PER_TIME_UNIT)).
(* common/model.rs:1116-1146 *)
Definition new_absolute_from_secs (m : mode) (s : Z) : option DisTimeStamp :=
  option_map (fun n => Absolute (nanoseconds_to_dis_time_units n) n) (seconds_to_nanoseconds m s).
Definition new_relative_from_secs (m : mode) (s : Z) : option DisTimeStamp :=
  option_map (fun n => Relative (nanoseconds_to_dis_time_units n) n) (seconds_to_nanoseconds m s).
Definition new_absolute_from_units (u : Z) : DisTimeStamp := Absolute u (dis_time_units_to_nanoseconds u).
Definition new_relative_from_units (u : Z) : DisTimeStamp := Relative u (dis_time_units_to_nanoseconds u).
(* common/model.rs:1163-1175 *)
Definition timestamp_from_raw (v : Z) : DisTimeStamp :=
  let u := Z.shiftr v 1 in
  if Z.land v 1 =? 1 then Absolute u (dis_time_units_to_nanoseconds u) else Relative u (dis_time_units_to_nanoseconds u).
(* common/model.rs:1087-1100: the shift is on u32 *)
Definition raw_from_timestamp (t : DisTimeStamp) : Z :=
  match t with
  | Absolute u _ => Z.lor (Z.shiftl u 1 mod 4294967296) 1
  | Relative u _ => Z.shiftl u 1 mod 4294967296
  end.

(** ** Decimal numbers in text (core::fmt::num and core::num::from_str_radix) *)
(** Strings are their UTF-8 octets. *)
Fixpoint show_dec (fuel : nat) (n : Z) : list Z :=
  match fuel with
  | O => []
  | S f => if n <? 10 then [48 + n] else show_dec f (n / 10) ++ [48 + n mod 10]
  end.
(* Display for u8 / u16: at most five digits *)
Definition display (n : Z) : list Z := show_dec 5 n.
Fixpoint parse_digits (max acc : Z) (s : list Z) : option Z :=
  match s with
  | [] => Some acc
  | c :: t => if (48 <=? c) && (c <=? 57) then
                let a := acc * 10 in
                if max <? a then None else
                let a := a + (c - 48) in
                if max <? a then None else parse_digits max a t
              else None
  end.
(* str::parse::<u8> / <u16> *)
Definition parse_uint (max : Z) (s : list Z) : option Z :=
  match s with
  | [] => None
  | [c] => if (c =? 43) || (c =? 45) then None else parse_digits max 0 s
  | c :: t => if c =? 43 then parse_digits max 0 t else parse_digits max 0 s
  end.
(* str::split(':') *)
Fixpoint split_colon (s : list Z) : list (list Z) :=
  match s with
  | [] => [[]]
  | c :: t => match split_colon t with
              | w :: ws => if c =? 58 then [] :: w :: ws else (c :: w) :: ws
              | [] => [[c]]
              end
  end.

(* Display for EntityType / AggregateType, common/model.rs:896-910, common/aggregate_state/model.rs:198-212 *)
Definition show7 (a b c d e f g : Z) : list Z :=
  display a ++ [58] ++ display b ++ [58] ++ display c ++ [58] ++ display d ++ [58] ++ display e ++ [58] ++ display f ++ [58] ++ display g.
(* FromStr, common/model.rs:913-963, common/aggregate_state/model.rs:215-267 *)
Definition parse7 {A} (k : Z -> Z -> Z -> Z -> Z -> Z -> Z -> A) (s : list Z) : option A :=
  match split_colon s with
  | [a; b; c; d; e; f; g] =>
    match parse_uint 255 a, parse_uint 255 b, parse_uint 65535 c, parse_uint 255 d, parse_uint 255 e, parse_uint 255 f, parse_uint 255 g with
    | Some a, Some b, Some c, Some d, Some e, Some f, Some g => Some (k a b c d e f g)
    | _, _, _, _, _, _, _ => None
    end
  | _ => None
  end.
Definition entity_type_to_string (t : EntityType) : list Z :=
  show7 (et_kind t) (et_domain t) (et_country t) (et_category t) (et_subcategory t) (et_specific t) (et_extra t).
(* Display for EntityId, common/model.rs:674-678 *)
Definition entity_id_to_string (e : EntityId) : list Z :=
  display (sa_site (ei_addr e)) ++ [58] ++ display (sa_app (ei_addr e)) ++ [58] ++ display (ei_id e).
Definition entity_type_from_str : list Z -> option EntityType := parse7 MkEntityType.
Definition aggregate_type_to_string (t : AggregateType) : list Z :=
  show7 (ag_kind t) (ag_domain t) (ag_country t) (ag_category t) (ag_subcategory t) (ag_specific t) (ag_extra t).
Definition aggregate_type_from_str : list Z -> option AggregateType := parse7 MkAggregateType.
(* FromStr for EntityMarking (n = 11) and AggregateMarking (n = 31), common/entity_state/model.rs:179-192,
   common/aggregate_state/model.rs:130-143; character set 1 is ASCII *)
Definition marking_from_str (n : Z) (s : list Z) : option Marking := if zlen s <=? n then Some (MkMarking 1 s) else None.

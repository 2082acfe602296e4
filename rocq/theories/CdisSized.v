(** * Variable-length integers whose number was overwritten

    Models cdis-assemble/src/types/model.rs and types/writer.rs. In CdisBase.v such an integer is its number alone, because the size tag is private
    and set by [From]. The number is a public field, though: [let mut u = UVINT8::from(3); u.value = 200;] compiles and keeps the tag. Here the tag
    is kept. *)
From Coq Require Import ZArith List Bool.
From Verif Require Import Base CdisBase.
Import ListNotations. Open Scope Z_scope.

(* the structures of types/model.rs, e.g. 26-30 UVINT8 {bit_size, pub value}; the tag is its flag value *)
Record VarNum := MkVarNum { vn_tag : Z; vn_value : Z }.
(* impl From, types/model.rs:78-90, 177-192, 285-300, 388-403, 511-526, 634-649, 757-772, 879-894 *)
Definition uvint8_from (v : Z) : VarNum := MkVarNum (uvint8_class v) v.
Definition uvint16_from (v : Z) : VarNum := MkVarNum (uvint16_class v) v.
Definition uvint32_from (v : Z) : VarNum := MkVarNum (uvint32_class v) v.
Definition svint12_from (v : Z) : VarNum := MkVarNum (svint12_class v) v.
Definition svint13_from (v : Z) : VarNum := MkVarNum (svint13_class v) v.
Definition svint14_from (v : Z) : VarNum := MkVarNum (svint14_class v) v.
Definition svint16_from (v : Z) : VarNum := MkVarNum (svint16_class v) v.
Definition svint24_from (v : Z) : VarNum := MkVarNum (svint24_class v) v.
(** the assignment [x.value = v] of the calling program *)
Definition set_value (x : VarNum) (v : Z) : VarNum := MkVarNum (vn_tag x) v.

(* serialize, types/writer.rs:8-97 *)
Definition ser_uvint (flag ty : Z) (bits : Z -> Z) (x : VarNum) : BW := (bput 8 flag (vn_tag x);; bput ty (bits (vn_tag x)) (vn_value x))%write.
Definition ser_svint (m : mode) (ty : Z) (bits : Z -> Z) (x : VarNum) : BW := (bput 8 2 (vn_tag x);; bput_s m ty (bits (vn_tag x)) (vn_value x))%write.
Definition ser_uvint8 := ser_uvint 1 8 uvint8_bits.
Definition ser_uvint16 := ser_uvint 2 16 uvint16_bits.
Definition ser_uvint32 := ser_uvint 2 32 uvint32_bits.
Definition ser_svint12 m := ser_svint m 16 svint12_bits.
Definition ser_svint13 m := ser_svint m 16 svint13_bits.
Definition ser_svint14 m := ser_svint m 16 svint14_bits.
Definition ser_svint16 m := ser_svint m 16 svint16_bits.
Definition ser_svint24 m := ser_svint m 32 svint24_bits.

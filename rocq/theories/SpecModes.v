(** * Vocabulary for C53: debug and release builds of the gateway *)
From Coq Require Import ZArith List.
From Verif Require Import Base Gateway GatewaySys.
Import ListNotations. Open Scope Z_scope.

(** the codec task has not panicked, nor is it about to *)
Definition codec_unharmed {S} (c : Codec S) : Prop := match c with CPanicked | CWorking _ None => False | _ => True end.
Definition unharmed (s : Sys) : Prop := codec_unharmed (f_codec (s_enc s)) /\ codec_unharmed (f_codec (s_dec s)).

(** Floating-point and decimal numbers, in units of 10^-1074. *)
From Coq Require Import ZArith.
From Verif Require Import RealTextModel.
Local Open Scope Z_scope.

(** [n] is m * 2^e with |m| < 2^bits and e >= least, and below 2^limit: a finite number of the format *)
Definition number_of (f : format) (n : Z) : Prop :=
  (exists m e, Z.abs m < 2 ^ bits f /\ least f <= e /\ n = m * two_to e) /\ Z.abs n < two_to (limit f).
(** a number with all binary digits: not below the smallest normal number *)
Definition normal (f : format) (n : Z) : Prop := 2 ^ (bits f - 1) * two_to (least f) <= Z.abs n.
(** [v] has no more than [p] decimal digits *)
Definition decimal (p v : Z) : Prop := exists d j, Z.abs d < 10 ^ p /\ 0 <= j /\ v = d * 10 ^ j.
(** the two formats *)
Definition standard (f : format) : Prop := f = double_format \/ f = float_format.
(** whole numbers *)
Definition whole (z : Z) : Z := z * 10 ^ 1074.

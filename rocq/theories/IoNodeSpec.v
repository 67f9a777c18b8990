(** Specification of the assignment of I/O nodes. *)
From Coq Require Import List Arith ZArith.
From Verif Require Import Base LayoutModel LayoutSpec.
Import ListNotations.

(** [a] over [b], rounded up. *)
Definition ceil_div (a b : nat) : nat := a / b + if a mod b =? 0 then 0 else 1.

(** Two nodes lie in the same block when the machine's grid [P] is cut, in every direction, into
    slabs of ceil(P/g) nodes. *)
Definition same_block (P g c c' : list nat) : Prop :=
  forall mu, mu < length P ->
    get c mu / ceil_div (get P mu) (get g mu) = get c' mu / ceil_div (get P mu) (get g mu).

(** The first node of a block: all its coordinates are multiples of the slab thickness. *)
Definition block_corner (P g c : list nat) : Prop :=
  forall mu, mu < length P -> Nat.divide (ceil_div (get P mu) (get g mu)) (get c mu).

(** The number of slabs that hold nodes, in every direction. *)
Definition slabs (P g : list nat) : list nat :=
  map (fun mu => ceil_div (get P mu) (ceil_div (get P mu) (get g mu))) (seq 0 (length P)).

(** [r] takes only values in [S], and takes each of them. *)
Definition assigned (io : nat -> res nat) (nodes : nat) (S : list nat) : Prop :=
  forall r, In r S <-> exists n, n < nodes /\ io n = Val r.

(** Specification of the random number generators. *)
From Coq Require Import List Arith ZArith.
From Verif Require Import LayoutModel LayoutSpec RngModel.
Import ListNotations.
Local Open Scope Z_scope.

(** The number a seed stands for, and the range of the limbs: 12, 12, 12 and 11 bits. *)
Definition sval (s : seed) : Z := e0 s + 2 ^ 12 * e1 s + 2 ^ 24 * e2 s + 2 ^ 36 * e3 s.
Definition seed_ok (s : seed) : Prop :=
  0 <= e0 s < 2 ^ 12 /\ 0 <= e1 s < 2 ^ 12 /\ 0 <= e2 s < 2 ^ 12 /\ 0 <= e3 s < 2 ^ 11.

(** The seed standing for a number below 2^47. *)
Definition seed_of (z : Z) : seed :=
  mkSeed (z mod 2 ^ 12) (z / 2 ^ 12 mod 2 ^ 12) (z / 2 ^ 24 mod 2 ^ 12) (z / 2 ^ 36 mod 2 ^ 11).

(** The fundamental multiplier. *)
Definition multiplier : Z := 1222 * 2 ^ 36 + 1498 * 2 ^ 24 + 712 * 2 ^ 12 + 1645.

(** The [n]-th number of the stream starting at [s]. *)
Definition stream (s : Z) (n : nat) : Z := s * multiplier ^ Z.of_nat n mod 2 ^ 47.

(** Word [w] delivered at lattice site [c] by a lattice draw when the global seed is [s]. *)
Definition lattice_number (L : list nat) (s : Z) (c : list nat) (w : nat) : Z :=
  stream s (lexnum L c + 1 + (volume L + 1) * w).
(** Word [w] of a scalar draw. *)
Definition scalar_number (s : Z) (w : nat) : Z := stream s (1 + w).

(** The global seed after a draw of [k] words. *)
Definition seed_after_lattice (L : list nat) (s : Z) (k : nat) : Z := stream s ((volume L + 1) * k).
Definition seed_after_scalar (s : Z) (k : nat) : Z := stream s k.

(** What a draw adds to the exponent of the stream, and the exponent reached before draw [j]
    of a history. *)
Definition advance (L : list nat) (d : draw) : nat :=
  match d with DScalar k => k | DLattice k _ => (volume L + 1) * k end.
Definition offset (L : list nat) (h : list draw) (j : nat) : nat :=
  list_sum (map (advance L) (firstn j h)).

(** The output of a history of draws, the value of the global seed being [s] at its start.
    [coord i] is the lattice coordinate of local site [i]. *)
Fixpoint expected {R} (conv : seed -> R) (L : list nat) (coord : nat -> list nat) (s : Z)
    (h : list draw) (o : list (@drawn R)) : Prop :=
  match h, o with
  | [], [] => True
  | DScalar k :: h', OutScalar ws :: o' =>
      ws = map (fun w => conv (seed_of (scalar_number s w))) (seq 0 k) /\
      expected conv L coord (seed_after_scalar s k) h' o'
  | DLattice k tab :: h', OutLattice f :: o' =>
      (forall i, In i tab ->
         nth_error f i = Some (map (fun w => conv (seed_of (lattice_number L s (coord i) w))) (seq 0 k))) /\
      expected conv L coord (seed_after_lattice L s k) h' o'
  | _, _ => False
  end.

(** The number behind word [w] at site [c] (ignored for scalar draws) of draw [d], the seed
    being [s] before the draw. *)
Definition number_of (L : list nat) (s : Z) (d : draw) (c : list nat) (w : nat) : Z :=
  match d with DScalar _ => scalar_number s w | DLattice _ _ => lattice_number L s c w end.
(** Two positions (site, word) of the same draw are the same position. *)
Definition same_position (d : draw) (c c' : list nat) (w w' : nat) : Prop :=
  match d with DScalar _ => w = w' | DLattice _ _ => c = c' /\ w = w' end.
Definition words_of (d : draw) : nat := match d with DScalar k => k | DLattice k _ => k end.

(** The 48-bit congruential generator RANNYU is documented to be. *)
Definition rannyu_multiplier : Z := 2 ^ 24 + 3513 * 2 ^ 12 + 821.
Definition rannyu_next (x : Z) : Z := (rannyu_multiplier * x + 1) mod 2 ^ 48.

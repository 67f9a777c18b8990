(** The documented epsilon contractions (docs/manual.tex 2760-2822), as sums over
    all index values. *)
From Coq Require Import List ZArith.
From Verif Require Import ColorModel.
Import ListNotations.

(** The totally antisymmetric symbol on {0,1,2}: the sign of the permutation
    (i,j,k), 0 if two indices agree. *)
Definition epsilon (i j k : nat) : Z :=
  let i := Z.of_nat i in let j := Z.of_nat j in let k := Z.of_nat k in
  Z.sgn ((j - i) * (k - i) * (k - j))%Z.

Section Spec.
Context {T : Type} (zero : T) (add mul sub : T -> T -> T) (neg : T -> T).

Definition signed (z : Z) (x : T) : T :=
  match z with Z0 => zero | Zpos _ => x | Zneg _ => neg x end.
Definition sum_over (n : nat) (f : nat -> T) : T :=
  fold_right (fun i s => add (f i) s) zero (seq 0 n).

(** eps^{ijk} eps^{i'j'k'} Q1^{ii'} Q2^{jj'} Q3^{kk'}, summed over all six
    indices. *)
Definition contract3 (Q1 Q2 Q3 : nat -> nat -> T) : T :=
  sum_over 3 (fun i => sum_over 3 (fun j => sum_over 3 (fun k =>
  sum_over 3 (fun i' => sum_over 3 (fun j' => sum_over 3 (fun k' =>
    signed (epsilon i j k * epsilon i' j' k') (mul (mul (Q1 i i') (Q2 j j')) (Q3 k k')))))))).

(** eps^{ijk} eps^{i'j'k'} Q1^{ii'} Q2^{jj'}, summed over i, j, i', j': the
    (k',k) component. *)
Definition contract2 (Q1 Q2 : nat -> nat -> T) (k' k : nat) : T :=
  sum_over 3 (fun i => sum_over 3 (fun j => sum_over 3 (fun i' => sum_over 3 (fun j' =>
    signed (epsilon i j k * epsilon i' j' k') (mul (Q1 i i') (Q2 j j')))))).

(** eps^{ijk} V1^i V2^j V3^k *)
Definition triple_product (V1 V2 V3 : nat -> T) : T :=
  sum_over 3 (fun i => sum_over 3 (fun j => sum_over 3 (fun k =>
    signed (epsilon i j k) (mul (mul (V1 i) (V2 j)) (V3 k))))).

(** The i-th component of the cross product: eps^{ijk} V1^j V2^k. *)
Definition cross (V1 V2 : nat -> T) (i : nat) : T :=
  sum_over 3 (fun j => sum_over 3 (fun k => signed (epsilon i j k) (mul (V1 j) (V2 k)))).

(** The determinant by the Leibniz formula: eps^{ijk} U^{0i} U^{1j} U^{2k}. *)
Definition determinant (U : nat -> nat -> T) : T :=
  triple_product (U 0) (U 1) (U 2).

(** The matrix product. *)
Definition product3 (A B : nat -> nat -> T) (i j : nat) : T :=
  sum_over 3 (fun k => mul (A i k) (B k j)).

End Spec.

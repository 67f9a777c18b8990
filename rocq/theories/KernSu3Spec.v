(** What the 3x3 products should compute, independently of their code. *)
From Coq Require Import ZArith List String.
From Verif Require Import Base KernLang KernSpec.
Import ListNotations.
Local Open Scope Z_scope.

Section Spec.
  Context {R : Type} (rO : R) (radd rmul rsub : R -> R -> R) (ropp : R -> R).

  (** Complex numbers. *)
  Definition c_plus (a b : R * R) : R * R := (radd (fst a) (fst b), radd (snd a) (snd b)).
  Definition c_times (a b : R * R) : R * R :=
    (rsub (rmul (fst a) (fst b)) (rmul (snd a) (snd b)), radd (rmul (fst a) (snd b)) (rmul (snd a) (fst b))).
  Definition c_conj (a : R * R) : R * R := (fst a, ropp (snd a)).
  Definition sum3 (f : Z -> R * R) : R * R := c_plus (c_plus (f 0) (f 1)) (f 2).

  (** Number [k] of an array; element (i,j) of a matrix and of its adjoint. *)
  Definition num (x : @vec R) (k : Z) : R * R := (x (2 * k), x (2 * k + 1)).
  Definition mat (x : @vec R) (i j : Z) : R * R := num x (3 * i + j).
  Definition adj (x : @vec R) (i j : Z) : R * R := c_conj (mat x j i).

  (** [p] and [q], of so many reals, do not overlap. *)
  Definition disjoint (p : ptr) (lp : Z) (q : ptr) (lq : Z) : Prop :=
    forall i j, 0 <= i < lp -> 0 <= j < lq -> ~ (fst p = fst q /\ snd p + i = snd q + j).

  (** Code with operands at "aa", "bb" (of so many reals) and the result at "cc": if the result
      overlaps neither operand, [P] holds between the operands and the result, and nothing else has
      changed. *)
  Definition computes (c : stmt) (la lb lc : Z) (P : @vec R -> @vec R -> @vec R -> Prop) : Prop :=
    forall (m : memory R) (aa bb cc : ptr),
      has m aa la -> has m bb lb -> has m cc lc ->
      disjoint aa la cc lc -> disjoint bb lb cc lc ->
      exists m',
        call rO radd rmul rsub ropp c [("aa", aa); ("bb", bb); ("cc", cc)]%string [] m = Val m' /\
        (forall i, 0 <= i < lc -> cell m' cc i <> None) /\
        P (value rO m aa) (value rO m bb) (value rO m' cc) /\
        (forall b o, ~ (b = fst cc /\ snd cc <= o < snd cc + lc) -> m' b o = m b o).

  Definition is_product (A B C : Z -> Z -> R * R) : Prop :=
    forall i j, 0 <= i < 3 -> 0 <= j < 3 -> C i j = sum3 (fun x => c_times (A i x) (B x j)).
  Definition is_image (A : Z -> Z -> R * R) (b c : Z -> R * R) : Prop :=
    forall i, 0 <= i < 3 -> c i = sum3 (fun x => c_times (A i x) (b x)).
End Spec.

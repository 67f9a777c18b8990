(** What is said about the numbers of colours and spins in records. *)
From Coq Require Import List Arith Bool.
From Verif Require Import StaticModel.
Import ListNotations.

(** The numbers as one understands them: the size of the outermost spin (colour) vector or matrix in the type, 1 if there is
    none. *)
Fixpoint spins (t : qt) : nat :=
  match t with
  | RScalar | RComplex => 1
  | SpinVector k _ | SpinMatrix k _ => k
  | ColorVector _ t | ColorMatrix _ t | Wrap _ t => spins t
  end.
Fixpoint colors (t : qt) : nat :=
  match t with
  | RScalar | RComplex => 1
  | ColorVector k _ | ColorMatrix k _ => k
  | SpinVector _ t | SpinMatrix _ t | Wrap _ t => colors t
  end.
(** The types inside whose member is set from another, outermost first, the type itself included. *)
Fixpoint spin_steps (t : qt) : list qt :=
  match t with
  | RScalar | RComplex | SpinVector _ _ | SpinMatrix _ _ => []
  | ColorVector _ u | ColorMatrix _ u | Wrap _ u => t :: spin_steps u
  end.
Fixpoint color_steps (t : qt) : list qt :=
  match t with
  | RScalar | RComplex | ColorVector _ _ | ColorMatrix _ _ => []
  | SpinVector _ u | SpinMatrix _ u | Wrap _ u => t :: color_steps u
  end.
(** An order of initialisation that a program can have: every member it needs, each once. *)
Definition possible (steps : list qt) (order : list qt) : Prop := NoDup order /\ incl steps order.
(** [a] comes before [b]. *)
Definition before (order : list qt) (a b : qt) : Prop := exists l1 l2 l3, order = l1 ++ a :: l2 ++ b :: l3.
(** Inner ones first: each of the steps comes after the next one. *)
Fixpoint inner_first (order steps : list qt) : Prop :=
  match steps with
  | a :: (b :: _) as r => before order b a /\ inner_first order r
  | _ => True
  end.
(** Some types of the library. *)
Definition PScalar (t : qt) : qt := Wrap 0 t.
Definition real_t : qt := PScalar (PScalar RScalar).
Definition complex_t : qt := PScalar (PScalar RComplex).
Definition color_matrix : qt := PScalar (ColorMatrix 3 RComplex).
Definition spin_matrix : qt := SpinMatrix 4 (PScalar RComplex).
Definition fermion : qt := SpinVector 4 (ColorVector 3 RComplex).
Definition propagator : qt := SpinMatrix 4 (ColorMatrix 3 RComplex).

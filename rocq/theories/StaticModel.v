(** Model of the numbers of colours and spins that go into the records of data files: static members of class templates,
    each set from that of the type inside (include/qdp_qdpio.h 161-310), and what the order of their initialisation does.

    The C++ rules: a static member whose initialiser is a constant has its value before anything runs; the others are 0
    and get their value when their initialiser runs, once, before main; for static members of templates that are
    instantiated implicitly the order is not specified.  A compiler may also put the value in at once; the order in which
    the inner ones come first gives the same values. *)
From Coq Require Import List Arith Bool.
Import ListNotations.

(** The types.  [Wrap]: a template of one type, such as PScalar, PSeed, IScalar, OScalar, OLattice.  Which one it is makes
    no difference to any value, but different templates have different members: [n] tells them apart. *)
Inductive qt :=
| RScalar | RComplex
| Wrap (n : nat) (t : qt)
| SpinVector (k : nat) (t : qt) | SpinMatrix (k : nat) (t : qt)
| ColorVector (k : nat) (t : qt) | ColorMatrix (k : nat) (t : qt).

Inductive setting := Constant (k : nat) | From (t : qt).
(** NumSpins<T>::value, 161-233 *)
Definition spins_set (t : qt) : setting :=
  match t with
  | RScalar | RComplex => Constant 1
  | SpinVector k _ | SpinMatrix k _ => Constant k
  | ColorVector _ t | ColorMatrix _ t => From t
  | Wrap _ t => From t
  end.
(** NumColors<T>::value, 237-310 *)
Definition colors_set (t : qt) : setting :=
  match t with
  | RScalar | RComplex => Constant 1
  | SpinVector _ t | SpinMatrix _ t => From t
  | ColorVector k _ | ColorMatrix k _ => Constant k
  | Wrap _ t => From t
  end.

Definition qt_eq_dec (a b : qt) : {a = b} + {a <> b}.
Proof. decide equality; apply Nat.eq_dec. Defined.

Definition values := qt -> nat.
(** Before any initialiser runs. *)
Definition at_load (set : qt -> setting) : values :=
  fun t => match set t with Constant k => k | From _ => 0 end.
(** The initialiser of the member of [t] runs. *)
Definition init_one (set : qt -> setting) (v : values) (t : qt) : values :=
  match set t with
  | Constant _ => v
  | From u => fun x => if qt_eq_dec x t then v u else v x
  end.
(** All of them, in the given order: the values in main. *)
Definition in_main (set : qt -> setting) (order : list qt) : values := fold_left (init_one set) order (at_load set).

(** Epsilon contractions of colour matrices, colour vectors and quark
    propagators.

    Models include/qdp_primcolormat.h 459-700, include/qdp_primcolorvec.h
    249-340 and include/qdp_primspinmat.h 1720-1848; the right-hand sides are
    copied from the unrolled C++ statements.

    Simplifications.  A PColorMatrix<T,3> is the function (i,j) -> elem(i,j), a
    PColorVector<T,3> the function i -> elem(i), a PSpinMatrix<T,4> the function
    (i,j) -> elem(i,j); indices outside the bounds never occur.  T is any type
    with +, -, *.  The versions for 1, 2 and 4 colours call QDP_abort
    (include/qdp_primcolormat.h 537-596, 705-768): [Abort]. *)
From Coq Require Import List ZArith.
From Verif Require Import Base.
Import ListNotations.

Section Color.
Context {T : Type} (add mul sub : T -> T -> T).
Local Notation "x + y" := (add x y).
Local Notation "x - y" := (sub x y).
Local Notation "x * y" := (mul x y).

Definition cmat := nat -> nat -> T.
Definition cvec := nat -> T.

(** include/qdp_primcolormat.h 467-524: colorContract of three 3x3 matrices. *)
Definition colorContract_mat3 (s1 s2 s3 : cmat) : T :=
  (s1 0 0*s2 1 1 - s1 1 0*s2 0 1 - s1 0 1*s2 1 0 + s1 1 1*s2 0 0)*s3 2 2
  + (s1 1 1*s2 2 2 - s1 2 1*s2 1 2 - s1 1 2*s2 2 1 + s1 2 2*s2 1 1)*s3 0 0
  + (s1 2 2*s2 0 0 - s1 0 2*s2 2 0 - s1 2 0*s2 0 2 + s1 0 0*s2 2 2)*s3 1 1
  + (s1 1 0*s2 2 1 - s1 2 0*s2 1 1 - s1 1 1*s2 2 0 + s1 2 1*s2 1 0)*s3 0 2
  + (s1 1 2*s2 2 0 - s1 2 2*s2 1 0 - s1 1 0*s2 2 2 + s1 2 0*s2 1 2)*s3 0 1
  + (s1 2 0*s2 0 1 - s1 0 0*s2 2 1 - s1 2 1*s2 0 0 + s1 0 1*s2 2 0)*s3 1 2
  + (s1 2 1*s2 0 2 - s1 0 1*s2 2 2 - s1 2 2*s2 0 1 + s1 0 2*s2 2 1)*s3 1 0
  + (s1 0 1*s2 1 2 - s1 1 1*s2 0 2 - s1 0 2*s2 1 1 + s1 1 2*s2 0 1)*s3 2 0
  + (s1 0 2*s2 1 0 - s1 1 2*s2 0 0 - s1 0 0*s2 1 2 + s1 1 0*s2 0 2)*s3 2 1.

(** include/qdp_primcolormat.h 601-688: quarkContractXX of two 3x3 matrices. *)
Definition quarkContractXX3 (s1 s2 : cmat) : cmat := fun i j =>
  match i, j with
  | 0, 0 => s1 1 1*s2 2 2 - s1 1 2*s2 2 1 - s1 2 1*s2 1 2 + s1 2 2*s2 1 1
  | 0, 1 => s1 2 1*s2 0 2 - s1 2 2*s2 0 1 - s1 0 1*s2 2 2 + s1 0 2*s2 2 1
  | 0, 2 => s1 0 1*s2 1 2 - s1 0 2*s2 1 1 - s1 1 1*s2 0 2 + s1 1 2*s2 0 1
  | 1, 0 => s1 1 2*s2 2 0 - s1 1 0*s2 2 2 - s1 2 2*s2 1 0 + s1 2 0*s2 1 2
  | 1, 1 => s1 2 2*s2 0 0 - s1 2 0*s2 0 2 - s1 0 2*s2 2 0 + s1 0 0*s2 2 2
  | 1, 2 => s1 0 2*s2 1 0 - s1 0 0*s2 1 2 - s1 1 2*s2 0 0 + s1 1 0*s2 0 2
  | 2, 0 => s1 1 0*s2 2 1 - s1 1 1*s2 2 0 - s1 2 0*s2 1 1 + s1 2 1*s2 1 0
  | 2, 1 => s1 2 0*s2 0 1 - s1 2 1*s2 0 0 - s1 0 0*s2 2 1 + s1 0 1*s2 2 0
  | _, _ => s1 0 0*s2 1 1 - s1 0 1*s2 1 0 - s1 1 0*s2 0 1 + s1 1 1*s2 0 0
  end.

(** include/qdp_primcolorvec.h 257-281: colorContract of three 3-vectors. *)
Definition colorContract_vec3 (s1 s2 s3 : cvec) : T :=
  (s1 0*s2 1 - s1 1*s2 0)*s3 2
  + (s1 1*s2 2 - s1 2*s2 1)*s3 0
  + (s1 2*s2 0 - s1 0*s2 2)*s3 1.

(** include/qdp_primcolorvec.h 292-309: colorVectorContract of two N-vectors:
    "d = s1(0)*s2(0); for(int i=1; i < N; ++i) d += s1(i)*s2(i)". *)
Definition colorVectorContract (n : nat) (s1 s2 : cvec) : T :=
  fold_left (fun d i => d + s1 i * s2 i) (seq 1 (n - 1)) (s1 0 * s2 0).

(** include/qdp_primcolorvec.h 319-338: colorCrossProduct. *)
Definition colorCrossProduct (s1 s2 : cvec) : cvec := fun i =>
  match i with
  | 0 => s1 1*s2 2 - s1 2*s2 1
  | 1 => s1 2*s2 0 - s1 0*s2 2
  | _ => s1 0*s2 1 - s1 1*s2 0
  end.

(** Dispatch on the number of colours: only three colours are written. *)
Definition colorContract_mat (nc : nat) (s1 s2 s3 : cmat) : res T :=
  match nc with
  | 3 => Val (colorContract_mat3 s1 s2 s3)
  | _ => Abort
  end.
Definition quarkContractXX (nc : nat) (s1 s2 : cmat) : res cmat :=
  match nc with
  | 3 => Val (quarkContractXX3 s1 s2)
  | _ => Abort
  end.

(** * Quark propagators: spin matrices of colour matrices *)

Definition prop := nat -> nat -> cmat.
(** operator+= of PMatrix: element by element (include/qdp_primmatrix.h). *)
Definition cadd (x y : cmat) : cmat := fun a b => x a b + y a b.
(** "d = f(0); for(int k=1; k < 4; ++k) d += f(k)" *)
Definition accumulate (f : nat -> cmat) : cmat :=
  fold_left (fun d k => cadd d (f k)) (seq 1 3) (f 0).
Local Notation XX := quarkContractXX3.

(** include/qdp_primspinmat.h 1746-1761: quarkContract13. *)
Definition quarkContract13 (s1 s2 : prop) : prop := fun i j =>
  accumulate (fun k => XX (s1 k i) (s2 k j)).

(** include/qdp_primspinmat.h 1763-1778: quarkContract14. *)
Definition quarkContract14 (s1 s2 : prop) : prop := fun i j =>
  accumulate (fun k => XX (s1 k i) (s2 j k)).

(** include/qdp_primspinmat.h 1780-1795: quarkContract23. *)
Definition quarkContract23 (s1 s2 : prop) : prop := fun i j =>
  accumulate (fun k => XX (s1 i k) (s2 k j)).

(** include/qdp_primspinmat.h 1797-1812: quarkContract24. *)
Definition quarkContract24 (s1 s2 : prop) : prop := fun i j =>
  accumulate (fun k => XX (s1 i k) (s2 j k)).

(** include/qdp_primspinmat.h 1814-1829: quarkContract12. *)
Definition quarkContract12 (s1 s2 : prop) : prop := fun i j =>
  accumulate (fun k => XX (s1 k k) (s2 i j)).

(** include/qdp_primspinmat.h 1831-1846: quarkContract34. *)
Definition quarkContract34 (s1 s2 : prop) : prop := fun i j =>
  accumulate (fun k => XX (s1 i j) (s2 k k)).

(** include/qdp_primspinmat.h 1727-1743: traceSpinQuarkContract13: the first
    column is accumulated first, then columns 1, 2, 3. *)
Definition traceSpinQuarkContract13 (l r : prop) : cmat :=
  fold_left (fun d j => fold_left (fun d k => cadd d (XX (l k j) (r k j))) (seq 0 4) d)
            (seq 1 3)
            (fold_left (fun d k => cadd d (XX (l k 0) (r k 0))) (seq 1 3) (XX (l 0 0) (r 0 0))).

End Color.

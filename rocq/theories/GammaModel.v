(** The hand-written gamma-matrix products, spin projections and spin
    reconstructions.

    Models include/qdp_primspinvec.h, include/qdp_primspinmat.h and
    include/qdp_primgamma.h.  Every definition below is a transcription, row by
    row and in the order of the source, of one C++ function; the lines are cited
    before each.

    Simplifications.  A PSpinVector<T,4> is the four values of its elements
    ([quad T]); a PSpinMatrix<T,4> is its four rows; a PSpinVector<T,2> is a
    pair.  The element type T (colour vectors, colour matrices, complex numbers)
    is an arbitrary type with the operations the C++ text applies to it: unary
    minus, timesI, timesMinusI, binary + and -, zero_rep.  The results [d] are
    built in one step instead of being assigned one element at a time: every row
    of [d] is assigned exactly once in each of the functions, so no element is
    left uninitialised. *)
From Coq Require Import ZArith List.
From Verif Require Import Base.
Import ListNotations.

(** PSpinVector<T,4>: include/qdp_primspinvec.h 1-120 (the class), elem(i). *)
Record quad (T : Type) : Type := Quad { q0 : T; q1 : T; q2 : T; q3 : T }.
Arguments Quad {T} _ _ _ _.
Arguments q0 {T} _. Arguments q1 {T} _. Arguments q2 {T} _. Arguments q3 {T} _.

(** elem(i) of a vector of length 4 (include/qdp_primvector.h, elem).  The
    loops only produce 0..3; other indices never occur. *)
Definition el {T} (v : quad T) (i : nat) : T :=
  match i with 0 => q0 v | 1 => q1 v | 2 => q2 v | _ => q3 v end.

(** PSpinMatrix<T,4>, stored here by rows; elem(i,j). *)
Definition smat (T : Type) : Type := quad (quad T).
Definition el2 {T} (m : smat T) (i j : nat) : T := el (el m i) j.

(** The loop "for(int i=0; i < 4; ++i) { d.elem(0,i) = ..; d.elem(1,i) = ..;
    d.elem(2,i) = ..; d.elem(3,i) = ..; }": iteration i fills column i. *)
Definition by_columns {T} (c : nat -> quad T) : smat T :=
  Quad (Quad (q0 (c 0)) (q0 (c 1)) (q0 (c 2)) (q0 (c 3)))
       (Quad (q1 (c 0)) (q1 (c 1)) (q1 (c 2)) (q1 (c 3)))
       (Quad (q2 (c 0)) (q2 (c 1)) (q2 (c 2)) (q2 (c 3)))
       (Quad (q3 (c 0)) (q3 (c 1)) (q3 (c 2)) (q3 (c 3))).

(** The loop "for(int i=0; i < 4; ++i) { d.elem(i,0) = ..; d.elem(i,1) = ..;
    .. }": iteration i fills row i. *)
Definition by_rows {T} (r : nat -> quad T) : smat T :=
  Quad (r 0) (r 1) (r 2) (r 3).

(** The operations on the element type used by these functions. *)
Record elem_ops (T : Type) : Type := ElemOps {
  e_zero : T;                 (* zero_rep *)
  e_add : T -> T -> T;        (* binary + *)
  e_sub : T -> T -> T;        (* binary - *)
  e_neg : T -> T;             (* unary - *)
  e_timesI : T -> T;          (* timesI *)
  e_timesMinusI : T -> T      (* timesMinusI *)
}.
Arguments e_zero {T} _. Arguments e_add {T} _ _ _. Arguments e_sub {T} _ _ _.
Arguments e_neg {T} _ _. Arguments e_timesI {T} _ _. Arguments e_timesMinusI {T} _ _.

(** Which of the two families of matrices: Gamma (GammaConst, GammaType) or
    GammaDP (GammaConstDP, GammaTypeDP); include/qdp_primgamma.h 11-79. *)
Inductive basis := DeGrandRossi | DiracPauli.

Section Ops.
Context {T : Type} (O : elem_ops T).
Local Notation "- x" := (e_neg O x).
Local Notation "x + y" := (e_add O x y).
Local Notation "x - y" := (e_sub O x y).
Local Notation timesI := (e_timesI O).
Local Notation timesMinusI := (e_timesMinusI O).
Local Notation zero := (e_zero O).

(** include/qdp_primspinvec.h 1147-1158: operator*(GammaConst<4,0>, PSpinVector<T,4>). *)
Definition gamma0_vec (v : quad T) : quad T :=
  Quad (el v 0)
       (el v 1)
       (el v 2)
       (el v 3).

(** include/qdp_primspinvec.h 1161-1172: operator*(GammaConst<4,1>, PSpinVector<T,4>). *)
Definition gamma1_vec (v : quad T) : quad T :=
  Quad (timesI (el v 3))
       (timesI (el v 2))
       (timesMinusI (el v 1))
       (timesMinusI (el v 0)).

(** include/qdp_primspinvec.h 1175-1186: operator*(GammaConst<4,2>, PSpinVector<T,4>). *)
Definition gamma2_vec (v : quad T) : quad T :=
  Quad (- (el v 3))
       (el v 2)
       (el v 1)
       (- (el v 0)).

(** include/qdp_primspinvec.h 1189-1200: operator*(GammaConst<4,3>, PSpinVector<T,4>). *)
Definition gamma3_vec (v : quad T) : quad T :=
  Quad (timesMinusI (el v 0))
       (timesI (el v 1))
       (timesMinusI (el v 2))
       (timesI (el v 3)).

(** include/qdp_primspinvec.h 1203-1214: operator*(GammaConst<4,4>, PSpinVector<T,4>). *)
Definition gamma4_vec (v : quad T) : quad T :=
  Quad (timesI (el v 2))
       (timesMinusI (el v 3))
       (timesMinusI (el v 0))
       (timesI (el v 1)).

(** include/qdp_primspinvec.h 1217-1228: operator*(GammaConst<4,5>, PSpinVector<T,4>). *)
Definition gamma5_vec (v : quad T) : quad T :=
  Quad (- (el v 1))
       (el v 0)
       (- (el v 3))
       (el v 2).

(** include/qdp_primspinvec.h 1231-1242: operator*(GammaConst<4,6>, PSpinVector<T,4>). *)
Definition gamma6_vec (v : quad T) : quad T :=
  Quad (timesMinusI (el v 1))
       (timesMinusI (el v 0))
       (timesMinusI (el v 3))
       (timesMinusI (el v 2)).

(** include/qdp_primspinvec.h 1245-1256: operator*(GammaConst<4,7>, PSpinVector<T,4>). *)
Definition gamma7_vec (v : quad T) : quad T :=
  Quad (el v 2)
       (el v 3)
       (- (el v 0))
       (- (el v 1)).

(** include/qdp_primspinvec.h 1259-1270: operator*(GammaConst<4,8>, PSpinVector<T,4>). *)
Definition gamma8_vec (v : quad T) : quad T :=
  Quad (el v 2)
       (el v 3)
       (el v 0)
       (el v 1).

(** include/qdp_primspinvec.h 1273-1284: operator*(GammaConst<4,9>, PSpinVector<T,4>). *)
Definition gamma9_vec (v : quad T) : quad T :=
  Quad (timesI (el v 1))
       (timesI (el v 0))
       (timesMinusI (el v 3))
       (timesMinusI (el v 2)).

(** include/qdp_primspinvec.h 1287-1298: operator*(GammaConst<4,10>, PSpinVector<T,4>). *)
Definition gamma10_vec (v : quad T) : quad T :=
  Quad (- (el v 1))
       (el v 0)
       (el v 3)
       (- (el v 2)).

(** include/qdp_primspinvec.h 1301-1312: operator*(GammaConst<4,11>, PSpinVector<T,4>). *)
Definition gamma11_vec (v : quad T) : quad T :=
  Quad (timesMinusI (el v 2))
       (timesI (el v 3))
       (timesMinusI (el v 0))
       (timesI (el v 1)).

(** include/qdp_primspinvec.h 1315-1326: operator*(GammaConst<4,12>, PSpinVector<T,4>). *)
Definition gamma12_vec (v : quad T) : quad T :=
  Quad (timesI (el v 0))
       (timesMinusI (el v 1))
       (timesMinusI (el v 2))
       (timesI (el v 3)).

(** include/qdp_primspinvec.h 1329-1340: operator*(GammaConst<4,13>, PSpinVector<T,4>). *)
Definition gamma13_vec (v : quad T) : quad T :=
  Quad (- (el v 3))
       (el v 2)
       (- (el v 1))
       (el v 0).

(** include/qdp_primspinvec.h 1343-1354: operator*(GammaConst<4,14>, PSpinVector<T,4>). *)
Definition gamma14_vec (v : quad T) : quad T :=
  Quad (timesMinusI (el v 3))
       (timesMinusI (el v 2))
       (timesMinusI (el v 1))
       (timesMinusI (el v 0)).

(** include/qdp_primspinvec.h 1357-1368: operator*(GammaConst<4,15>, PSpinVector<T,4>). *)
Definition gamma15_vec (v : quad T) : quad T :=
  Quad (el v 0)
       (el v 1)
       (- (el v 2))
       (- (el v 3)).

(** include/qdp_primspinvec.h 1710-1721: operator*(GammaConstDP<4,0>, PSpinVector<T,4>). *)
Definition DP_gamma0_vec (v : quad T) : quad T :=
  Quad (el v 0)
       (el v 1)
       (el v 2)
       (el v 3).

(** include/qdp_primspinvec.h 1724-1735: operator*(GammaConstDP<4,1>, PSpinVector<T,4>). *)
Definition DP_gamma1_vec (v : quad T) : quad T :=
  Quad (timesMinusI (el v 3))
       (timesMinusI (el v 2))
       (timesI (el v 1))
       (timesI (el v 0)).

(** include/qdp_primspinvec.h 1738-1749: operator*(GammaConstDP<4,2>, PSpinVector<T,4>). *)
Definition DP_gamma2_vec (v : quad T) : quad T :=
  Quad (- (el v 3))
       (el v 2)
       (el v 1)
       (- (el v 0)).

(** include/qdp_primspinvec.h 1752-1763: operator*(GammaConstDP<4,3>, PSpinVector<T,4>). *)
Definition DP_gamma3_vec (v : quad T) : quad T :=
  Quad (timesI (el v 0))
       (timesMinusI (el v 1))
       (timesI (el v 2))
       (timesMinusI (el v 3)).

(** include/qdp_primspinvec.h 1766-1777: operator*(GammaConstDP<4,4>, PSpinVector<T,4>). *)
Definition DP_gamma4_vec (v : quad T) : quad T :=
  Quad (timesMinusI (el v 2))
       (timesI (el v 3))
       (timesI (el v 0))
       (timesMinusI (el v 1)).

(** include/qdp_primspinvec.h 1780-1791: operator*(GammaConstDP<4,5>, PSpinVector<T,4>). *)
Definition DP_gamma5_vec (v : quad T) : quad T :=
  Quad (- (el v 1))
       (el v 0)
       (- (el v 3))
       (el v 2).

(** include/qdp_primspinvec.h 1794-1805: operator*(GammaConstDP<4,6>, PSpinVector<T,4>). *)
Definition DP_gamma6_vec (v : quad T) : quad T :=
  Quad (timesI (el v 1))
       (timesI (el v 0))
       (timesI (el v 3))
       (timesI (el v 2)).

(** include/qdp_primspinvec.h 1808-1819: operator*(GammaConstDP<4,7>, PSpinVector<T,4>). *)
Definition DP_gamma7_vec (v : quad T) : quad T :=
  Quad (el v 2)
       (el v 3)
       (- (el v 0))
       (- (el v 1)).

(** include/qdp_primspinvec.h 1822-1833: operator*(GammaConstDP<4,8>, PSpinVector<T,4>). *)
Definition DP_gamma8_vec (v : quad T) : quad T :=
  Quad (el v 0)
       (el v 1)
       (- (el v 2))
       (- (el v 3)).

(** include/qdp_primspinvec.h 1836-1847: operator*(GammaConstDP<4,9>, PSpinVector<T,4>). *)
Definition DP_gamma9_vec (v : quad T) : quad T :=
  Quad (timesI (el v 3))
       (timesI (el v 2))
       (timesI (el v 1))
       (timesI (el v 0)).

(** include/qdp_primspinvec.h 1850-1861: operator*(GammaConstDP<4,10>, PSpinVector<T,4>). *)
Definition DP_gamma10_vec (v : quad T) : quad T :=
  Quad (el v 3)
       (- (el v 2))
       (el v 1)
       (- (el v 0)).

(** include/qdp_primspinvec.h 1864-1875: operator*(GammaConstDP<4,11>, PSpinVector<T,4>). *)
Definition DP_gamma11_vec (v : quad T) : quad T :=
  Quad (timesI (el v 0))
       (timesMinusI (el v 1))
       (timesMinusI (el v 2))
       (timesI (el v 3)).

(** include/qdp_primspinvec.h 1878-1889: operator*(GammaConstDP<4,12>, PSpinVector<T,4>). *)
Definition DP_gamma12_vec (v : quad T) : quad T :=
  Quad (timesI (el v 2))
       (timesMinusI (el v 3))
       (timesI (el v 0))
       (timesMinusI (el v 1)).

(** include/qdp_primspinvec.h 1892-1903: operator*(GammaConstDP<4,13>, PSpinVector<T,4>). *)
Definition DP_gamma13_vec (v : quad T) : quad T :=
  Quad (- (el v 1))
       (el v 0)
       (el v 3)
       (- (el v 2)).

(** include/qdp_primspinvec.h 1906-1917: operator*(GammaConstDP<4,14>, PSpinVector<T,4>). *)
Definition DP_gamma14_vec (v : quad T) : quad T :=
  Quad (timesI (el v 1))
       (timesI (el v 0))
       (timesMinusI (el v 3))
       (timesMinusI (el v 2)).

(** include/qdp_primspinvec.h 1920-1931: operator*(GammaConstDP<4,15>, PSpinVector<T,4>). *)
Definition DP_gamma15_vec (v : quad T) : quad T :=
  Quad (- (el v 2))
       (- (el v 3))
       (- (el v 0))
       (- (el v 1)).

(** include/qdp_primspinmat.h 584-598: operator*(GammaConst<4,0>, PSpinMatrix<T,4>). *)
Definition gamma0_mat (m : smat T) : smat T :=
  by_columns (fun i =>
  Quad (el2 m 0 i)
       (el2 m 1 i)
       (el2 m 2 i)
       (el2 m 3 i)).

(** include/qdp_primspinmat.h 601-615: operator*(GammaConst<4,1>, PSpinMatrix<T,4>). *)
Definition gamma1_mat (m : smat T) : smat T :=
  by_columns (fun i =>
  Quad (timesI (el2 m 3 i))
       (timesI (el2 m 2 i))
       (timesMinusI (el2 m 1 i))
       (timesMinusI (el2 m 0 i))).

(** include/qdp_primspinmat.h 618-632: operator*(GammaConst<4,2>, PSpinMatrix<T,4>). *)
Definition gamma2_mat (m : smat T) : smat T :=
  by_columns (fun i =>
  Quad (- (el2 m 3 i))
       (el2 m 2 i)
       (el2 m 1 i)
       (- (el2 m 0 i))).

(** include/qdp_primspinmat.h 635-649: operator*(GammaConst<4,3>, PSpinMatrix<T,4>). *)
Definition gamma3_mat (m : smat T) : smat T :=
  by_columns (fun i =>
  Quad (timesMinusI (el2 m 0 i))
       (timesI (el2 m 1 i))
       (timesMinusI (el2 m 2 i))
       (timesI (el2 m 3 i))).

(** include/qdp_primspinmat.h 652-666: operator*(GammaConst<4,4>, PSpinMatrix<T,4>). *)
Definition gamma4_mat (m : smat T) : smat T :=
  by_columns (fun i =>
  Quad (timesI (el2 m 2 i))
       (timesMinusI (el2 m 3 i))
       (timesMinusI (el2 m 0 i))
       (timesI (el2 m 1 i))).

(** include/qdp_primspinmat.h 669-683: operator*(GammaConst<4,5>, PSpinMatrix<T,4>). *)
Definition gamma5_mat (m : smat T) : smat T :=
  by_columns (fun i =>
  Quad (- (el2 m 1 i))
       (el2 m 0 i)
       (- (el2 m 3 i))
       (el2 m 2 i)).

(** include/qdp_primspinmat.h 686-700: operator*(GammaConst<4,6>, PSpinMatrix<T,4>). *)
Definition gamma6_mat (m : smat T) : smat T :=
  by_columns (fun i =>
  Quad (timesMinusI (el2 m 1 i))
       (timesMinusI (el2 m 0 i))
       (timesMinusI (el2 m 3 i))
       (timesMinusI (el2 m 2 i))).

(** include/qdp_primspinmat.h 703-717: operator*(GammaConst<4,7>, PSpinMatrix<T,4>). *)
Definition gamma7_mat (m : smat T) : smat T :=
  by_columns (fun i =>
  Quad (el2 m 2 i)
       (el2 m 3 i)
       (- (el2 m 0 i))
       (- (el2 m 1 i))).

(** include/qdp_primspinmat.h 720-734: operator*(GammaConst<4,8>, PSpinMatrix<T,4>). *)
Definition gamma8_mat (m : smat T) : smat T :=
  by_columns (fun i =>
  Quad (el2 m 2 i)
       (el2 m 3 i)
       (el2 m 0 i)
       (el2 m 1 i)).

(** include/qdp_primspinmat.h 737-751: operator*(GammaConst<4,9>, PSpinMatrix<T,4>). *)
Definition gamma9_mat (m : smat T) : smat T :=
  by_columns (fun i =>
  Quad (timesI (el2 m 1 i))
       (timesI (el2 m 0 i))
       (timesMinusI (el2 m 3 i))
       (timesMinusI (el2 m 2 i))).

(** include/qdp_primspinmat.h 754-768: operator*(GammaConst<4,10>, PSpinMatrix<T,4>). *)
Definition gamma10_mat (m : smat T) : smat T :=
  by_columns (fun i =>
  Quad (- (el2 m 1 i))
       (el2 m 0 i)
       (el2 m 3 i)
       (- (el2 m 2 i))).

(** include/qdp_primspinmat.h 771-785: operator*(GammaConst<4,11>, PSpinMatrix<T,4>). *)
Definition gamma11_mat (m : smat T) : smat T :=
  by_columns (fun i =>
  Quad (timesMinusI (el2 m 2 i))
       (timesI (el2 m 3 i))
       (timesMinusI (el2 m 0 i))
       (timesI (el2 m 1 i))).

(** include/qdp_primspinmat.h 788-802: operator*(GammaConst<4,12>, PSpinMatrix<T,4>). *)
Definition gamma12_mat (m : smat T) : smat T :=
  by_columns (fun i =>
  Quad (timesI (el2 m 0 i))
       (timesMinusI (el2 m 1 i))
       (timesMinusI (el2 m 2 i))
       (timesI (el2 m 3 i))).

(** include/qdp_primspinmat.h 805-819: operator*(GammaConst<4,13>, PSpinMatrix<T,4>). *)
Definition gamma13_mat (m : smat T) : smat T :=
  by_columns (fun i =>
  Quad (- (el2 m 3 i))
       (el2 m 2 i)
       (- (el2 m 1 i))
       (el2 m 0 i)).

(** include/qdp_primspinmat.h 822-836: operator*(GammaConst<4,14>, PSpinMatrix<T,4>). *)
Definition gamma14_mat (m : smat T) : smat T :=
  by_columns (fun i =>
  Quad (timesMinusI (el2 m 3 i))
       (timesMinusI (el2 m 2 i))
       (timesMinusI (el2 m 1 i))
       (timesMinusI (el2 m 0 i))).

(** include/qdp_primspinmat.h 839-853: operator*(GammaConst<4,15>, PSpinMatrix<T,4>). *)
Definition gamma15_mat (m : smat T) : smat T :=
  by_columns (fun i =>
  Quad (el2 m 0 i)
       (el2 m 1 i)
       (- (el2 m 2 i))
       (- (el2 m 3 i))).

(** include/qdp_primspinmat.h 859-873: operator*(PSpinMatrix<T,4>, GammaConst<4,0>). *)
Definition mat_gamma0 (m : smat T) : smat T :=
  by_rows (fun i =>
  Quad (el2 m i 0)
       (el2 m i 1)
       (el2 m i 2)
       (el2 m i 3)).

(** include/qdp_primspinmat.h 876-890: operator*(PSpinMatrix<T,4>, GammaConst<4,1>). *)
Definition mat_gamma1 (m : smat T) : smat T :=
  by_rows (fun i =>
  Quad (timesMinusI (el2 m i 3))
       (timesMinusI (el2 m i 2))
       (timesI (el2 m i 1))
       (timesI (el2 m i 0))).

(** include/qdp_primspinmat.h 893-907: operator*(PSpinMatrix<T,4>, GammaConst<4,2>). *)
Definition mat_gamma2 (m : smat T) : smat T :=
  by_rows (fun i =>
  Quad (- (el2 m i 3))
       (el2 m i 2)
       (el2 m i 1)
       (- (el2 m i 0))).

(** include/qdp_primspinmat.h 910-924: operator*(PSpinMatrix<T,4>, GammaConst<4,3>). *)
Definition mat_gamma3 (m : smat T) : smat T :=
  by_rows (fun i =>
  Quad (timesMinusI (el2 m i 0))
       (timesI (el2 m i 1))
       (timesMinusI (el2 m i 2))
       (timesI (el2 m i 3))).

(** include/qdp_primspinmat.h 927-941: operator*(PSpinMatrix<T,4>, GammaConst<4,4>). *)
Definition mat_gamma4 (m : smat T) : smat T :=
  by_rows (fun i =>
  Quad (timesMinusI (el2 m i 2))
       (timesI (el2 m i 3))
       (timesI (el2 m i 0))
       (timesMinusI (el2 m i 1))).

(** include/qdp_primspinmat.h 944-958: operator*(PSpinMatrix<T,4>, GammaConst<4,5>). *)
Definition mat_gamma5 (m : smat T) : smat T :=
  by_rows (fun i =>
  Quad (el2 m i 1)
       (- (el2 m i 0))
       (el2 m i 3)
       (- (el2 m i 2))).

(** include/qdp_primspinmat.h 961-975: operator*(PSpinMatrix<T,4>, GammaConst<4,6>). *)
Definition mat_gamma6 (m : smat T) : smat T :=
  by_rows (fun i =>
  Quad (timesMinusI (el2 m i 1))
       (timesMinusI (el2 m i 0))
       (timesMinusI (el2 m i 3))
       (timesMinusI (el2 m i 2))).

(** include/qdp_primspinmat.h 978-992: operator*(PSpinMatrix<T,4>, GammaConst<4,7>). *)
Definition mat_gamma7 (m : smat T) : smat T :=
  by_rows (fun i =>
  Quad (- (el2 m i 2))
       (- (el2 m i 3))
       (el2 m i 0)
       (el2 m i 1)).

(** include/qdp_primspinmat.h 995-1009: operator*(PSpinMatrix<T,4>, GammaConst<4,8>). *)
Definition mat_gamma8 (m : smat T) : smat T :=
  by_rows (fun i =>
  Quad (el2 m i 2)
       (el2 m i 3)
       (el2 m i 0)
       (el2 m i 1)).

(** include/qdp_primspinmat.h 1012-1026: operator*(PSpinMatrix<T,4>, GammaConst<4,9>). *)
Definition mat_gamma9 (m : smat T) : smat T :=
  by_rows (fun i =>
  Quad (timesI (el2 m i 1))
       (timesI (el2 m i 0))
       (timesMinusI (el2 m i 3))
       (timesMinusI (el2 m i 2))).

(** include/qdp_primspinmat.h 1029-1043: operator*(PSpinMatrix<T,4>, GammaConst<4,10>). *)
Definition mat_gamma10 (m : smat T) : smat T :=
  by_rows (fun i =>
  Quad (el2 m i 1)
       (- (el2 m i 0))
       (- (el2 m i 3))
       (el2 m i 2)).

(** include/qdp_primspinmat.h 1046-1060: operator*(PSpinMatrix<T,4>, GammaConst<4,11>). *)
Definition mat_gamma11 (m : smat T) : smat T :=
  by_rows (fun i =>
  Quad (timesMinusI (el2 m i 2))
       (timesI (el2 m i 3))
       (timesMinusI (el2 m i 0))
       (timesI (el2 m i 1))).

(** include/qdp_primspinmat.h 1063-1077: operator*(PSpinMatrix<T,4>, GammaConst<4,12>). *)
Definition mat_gamma12 (m : smat T) : smat T :=
  by_rows (fun i =>
  Quad (timesI (el2 m i 0))
       (timesMinusI (el2 m i 1))
       (timesMinusI (el2 m i 2))
       (timesI (el2 m i 3))).

(** include/qdp_primspinmat.h 1080-1094: operator*(PSpinMatrix<T,4>, GammaConst<4,13>). *)
Definition mat_gamma13 (m : smat T) : smat T :=
  by_rows (fun i =>
  Quad (el2 m i 3)
       (- (el2 m i 2))
       (el2 m i 1)
       (- (el2 m i 0))).

(** include/qdp_primspinmat.h 1097-1111: operator*(PSpinMatrix<T,4>, GammaConst<4,14>). *)
Definition mat_gamma14 (m : smat T) : smat T :=
  by_rows (fun i =>
  Quad (timesMinusI (el2 m i 3))
       (timesMinusI (el2 m i 2))
       (timesMinusI (el2 m i 1))
       (timesMinusI (el2 m i 0))).

(** include/qdp_primspinmat.h 1114-1128: operator*(PSpinMatrix<T,4>, GammaConst<4,15>). *)
Definition mat_gamma15 (m : smat T) : smat T :=
  by_rows (fun i =>
  Quad (el2 m i 0)
       (el2 m i 1)
       (- (el2 m i 2))
       (- (el2 m i 3))).

(** include/qdp_primspinmat.h 1136-1150: operator*(GammaConstDP<4,0>, PSpinMatrix<T,4>). *)
Definition DP_gamma0_mat (m : smat T) : smat T :=
  by_columns (fun i =>
  Quad (el2 m 0 i)
       (el2 m 1 i)
       (el2 m 2 i)
       (el2 m 3 i)).

(** include/qdp_primspinmat.h 1153-1167: operator*(GammaConstDP<4,1>, PSpinMatrix<T,4>). *)
Definition DP_gamma1_mat (m : smat T) : smat T :=
  by_columns (fun i =>
  Quad (timesMinusI (el2 m 3 i))
       (timesMinusI (el2 m 2 i))
       (timesI (el2 m 1 i))
       (timesI (el2 m 0 i))).

(** include/qdp_primspinmat.h 1170-1184: operator*(GammaConstDP<4,2>, PSpinMatrix<T,4>). *)
Definition DP_gamma2_mat (m : smat T) : smat T :=
  by_columns (fun i =>
  Quad (- (el2 m 3 i))
       (el2 m 2 i)
       (el2 m 1 i)
       (- (el2 m 0 i))).

(** include/qdp_primspinmat.h 1187-1201: operator*(GammaConstDP<4,3>, PSpinMatrix<T,4>). *)
Definition DP_gamma3_mat (m : smat T) : smat T :=
  by_columns (fun i =>
  Quad (timesI (el2 m 0 i))
       (timesMinusI (el2 m 1 i))
       (timesI (el2 m 2 i))
       (timesMinusI (el2 m 3 i))).

(** include/qdp_primspinmat.h 1204-1218: operator*(GammaConstDP<4,4>, PSpinMatrix<T,4>). *)
Definition DP_gamma4_mat (m : smat T) : smat T :=
  by_columns (fun i =>
  Quad (timesMinusI (el2 m 2 i))
       (timesI (el2 m 3 i))
       (timesI (el2 m 0 i))
       (timesMinusI (el2 m 1 i))).

(** include/qdp_primspinmat.h 1221-1235: operator*(GammaConstDP<4,5>, PSpinMatrix<T,4>). *)
Definition DP_gamma5_mat (m : smat T) : smat T :=
  by_columns (fun i =>
  Quad (- (el2 m 1 i))
       (el2 m 0 i)
       (- (el2 m 3 i))
       (el2 m 2 i)).

(** include/qdp_primspinmat.h 1238-1252: operator*(GammaConstDP<4,6>, PSpinMatrix<T,4>). *)
Definition DP_gamma6_mat (m : smat T) : smat T :=
  by_columns (fun i =>
  Quad (timesI (el2 m 1 i))
       (timesI (el2 m 0 i))
       (timesI (el2 m 3 i))
       (timesI (el2 m 2 i))).

(** include/qdp_primspinmat.h 1255-1269: operator*(GammaConstDP<4,7>, PSpinMatrix<T,4>). *)
Definition DP_gamma7_mat (m : smat T) : smat T :=
  by_columns (fun i =>
  Quad (el2 m 2 i)
       (el2 m 3 i)
       (- (el2 m 0 i))
       (- (el2 m 1 i))).

(** include/qdp_primspinmat.h 1272-1286: operator*(GammaConstDP<4,8>, PSpinMatrix<T,4>). *)
Definition DP_gamma8_mat (m : smat T) : smat T :=
  by_columns (fun i =>
  Quad (el2 m 0 i)
       (el2 m 1 i)
       (- (el2 m 2 i))
       (- (el2 m 3 i))).

(** include/qdp_primspinmat.h 1289-1303: operator*(GammaConstDP<4,9>, PSpinMatrix<T,4>). *)
Definition DP_gamma9_mat (m : smat T) : smat T :=
  by_columns (fun i =>
  Quad (timesI (el2 m 3 i))
       (timesI (el2 m 2 i))
       (timesI (el2 m 1 i))
       (timesI (el2 m 0 i))).

(** include/qdp_primspinmat.h 1306-1320: operator*(GammaConstDP<4,10>, PSpinMatrix<T,4>). *)
Definition DP_gamma10_mat (m : smat T) : smat T :=
  by_columns (fun i =>
  Quad (el2 m 3 i)
       (- (el2 m 2 i))
       (el2 m 1 i)
       (- (el2 m 0 i))).

(** include/qdp_primspinmat.h 1323-1337: operator*(GammaConstDP<4,11>, PSpinMatrix<T,4>). *)
Definition DP_gamma11_mat (m : smat T) : smat T :=
  by_columns (fun i =>
  Quad (timesI (el2 m 0 i))
       (timesMinusI (el2 m 1 i))
       (timesMinusI (el2 m 2 i))
       (timesI (el2 m 3 i))).

(** include/qdp_primspinmat.h 1340-1354: operator*(GammaConstDP<4,12>, PSpinMatrix<T,4>). *)
Definition DP_gamma12_mat (m : smat T) : smat T :=
  by_columns (fun i =>
  Quad (timesI (el2 m 2 i))
       (timesMinusI (el2 m 3 i))
       (timesI (el2 m 0 i))
       (timesMinusI (el2 m 1 i))).

(** include/qdp_primspinmat.h 1357-1371: operator*(GammaConstDP<4,13>, PSpinMatrix<T,4>). *)
Definition DP_gamma13_mat (m : smat T) : smat T :=
  by_columns (fun i =>
  Quad (- (el2 m 1 i))
       (el2 m 0 i)
       (el2 m 3 i)
       (- (el2 m 2 i))).

(** include/qdp_primspinmat.h 1374-1388: operator*(GammaConstDP<4,14>, PSpinMatrix<T,4>). *)
Definition DP_gamma14_mat (m : smat T) : smat T :=
  by_columns (fun i =>
  Quad (timesI (el2 m 1 i))
       (timesI (el2 m 0 i))
       (timesMinusI (el2 m 3 i))
       (timesMinusI (el2 m 2 i))).

(** include/qdp_primspinmat.h 1391-1405: operator*(GammaConstDP<4,15>, PSpinMatrix<T,4>). *)
Definition DP_gamma15_mat (m : smat T) : smat T :=
  by_columns (fun i =>
  Quad (- (el2 m 2 i))
       (- (el2 m 3 i))
       (- (el2 m 0 i))
       (- (el2 m 1 i))).

(** include/qdp_primspinmat.h 1411-1425: operator*(PSpinMatrix<T,4>, GammaConstDP<4,0>). *)
Definition mat_DP_gamma0 (m : smat T) : smat T :=
  by_rows (fun i =>
  Quad (el2 m i 0)
       (el2 m i 1)
       (el2 m i 2)
       (el2 m i 3)).

(** include/qdp_primspinmat.h 1428-1442: operator*(PSpinMatrix<T,4>, GammaConstDP<4,1>). *)
Definition mat_DP_gamma1 (m : smat T) : smat T :=
  by_rows (fun i =>
  Quad (timesI (el2 m i 3))
       (timesI (el2 m i 2))
       (timesMinusI (el2 m i 1))
       (timesMinusI (el2 m i 0))).

(** include/qdp_primspinmat.h 1445-1459: operator*(PSpinMatrix<T,4>, GammaConstDP<4,2>). *)
Definition mat_DP_gamma2 (m : smat T) : smat T :=
  by_rows (fun i =>
  Quad (- (el2 m i 3))
       (el2 m i 2)
       (el2 m i 1)
       (- (el2 m i 0))).

(** include/qdp_primspinmat.h 1462-1476: operator*(PSpinMatrix<T,4>, GammaConstDP<4,3>). *)
Definition mat_DP_gamma3 (m : smat T) : smat T :=
  by_rows (fun i =>
  Quad (timesI (el2 m i 0))
       (timesMinusI (el2 m i 1))
       (timesI (el2 m i 2))
       (timesMinusI (el2 m i 3))).

(** include/qdp_primspinmat.h 1479-1493: operator*(PSpinMatrix<T,4>, GammaConstDP<4,4>). *)
Definition mat_DP_gamma4 (m : smat T) : smat T :=
  by_rows (fun i =>
  Quad (timesI (el2 m i 2))
       (timesMinusI (el2 m i 3))
       (timesMinusI (el2 m i 0))
       (timesI (el2 m i 1))).

(** include/qdp_primspinmat.h 1496-1510: operator*(PSpinMatrix<T,4>, GammaConstDP<4,5>). *)
Definition mat_DP_gamma5 (m : smat T) : smat T :=
  by_rows (fun i =>
  Quad (el2 m i 1)
       (- (el2 m i 0))
       (el2 m i 3)
       (- (el2 m i 2))).

(** include/qdp_primspinmat.h 1513-1527: operator*(PSpinMatrix<T,4>, GammaConstDP<4,6>). *)
Definition mat_DP_gamma6 (m : smat T) : smat T :=
  by_rows (fun i =>
  Quad (timesI (el2 m i 1))
       (timesI (el2 m i 0))
       (timesI (el2 m i 3))
       (timesI (el2 m i 2))).

(** include/qdp_primspinmat.h 1530-1544: operator*(PSpinMatrix<T,4>, GammaConstDP<4,7>). *)
Definition mat_DP_gamma7 (m : smat T) : smat T :=
  by_rows (fun i =>
  Quad (- (el2 m i 2))
       (- (el2 m i 3))
       (el2 m i 0)
       (el2 m i 1)).

(** include/qdp_primspinmat.h 1547-1561: operator*(PSpinMatrix<T,4>, GammaConstDP<4,8>). *)
Definition mat_DP_gamma8 (m : smat T) : smat T :=
  by_rows (fun i =>
  Quad (el2 m i 0)
       (el2 m i 1)
       (- (el2 m i 2))
       (- (el2 m i 3))).

(** include/qdp_primspinmat.h 1564-1578: operator*(PSpinMatrix<T,4>, GammaConstDP<4,9>). *)
Definition mat_DP_gamma9 (m : smat T) : smat T :=
  by_rows (fun i =>
  Quad (timesI (el2 m i 3))
       (timesI (el2 m i 2))
       (timesI (el2 m i 1))
       (timesI (el2 m i 0))).

(** include/qdp_primspinmat.h 1581-1595: operator*(PSpinMatrix<T,4>, GammaConstDP<4,10>). *)
Definition mat_DP_gamma10 (m : smat T) : smat T :=
  by_rows (fun i =>
  Quad (- (el2 m i 3))
       (el2 m i 2)
       (- (el2 m i 1))
       (el2 m i 0)).

(** include/qdp_primspinmat.h 1598-1612: operator*(PSpinMatrix<T,4>, GammaConstDP<4,11>). *)
Definition mat_DP_gamma11 (m : smat T) : smat T :=
  by_rows (fun i =>
  Quad (timesI (el2 m i 0))
       (timesMinusI (el2 m i 1))
       (timesMinusI (el2 m i 2))
       (timesI (el2 m i 3))).

(** include/qdp_primspinmat.h 1615-1629: operator*(PSpinMatrix<T,4>, GammaConstDP<4,12>). *)
Definition mat_DP_gamma12 (m : smat T) : smat T :=
  by_rows (fun i =>
  Quad (timesI (el2 m i 2))
       (timesMinusI (el2 m i 3))
       (timesI (el2 m i 0))
       (timesMinusI (el2 m i 1))).

(** include/qdp_primspinmat.h 1632-1646: operator*(PSpinMatrix<T,4>, GammaConstDP<4,13>). *)
Definition mat_DP_gamma13 (m : smat T) : smat T :=
  by_rows (fun i =>
  Quad (el2 m i 1)
       (- (el2 m i 0))
       (- (el2 m i 3))
       (el2 m i 2)).

(** include/qdp_primspinmat.h 1649-1663: operator*(PSpinMatrix<T,4>, GammaConstDP<4,14>). *)
Definition mat_DP_gamma14 (m : smat T) : smat T :=
  by_rows (fun i =>
  Quad (timesI (el2 m i 1))
       (timesI (el2 m i 0))
       (timesMinusI (el2 m i 3))
       (timesMinusI (el2 m i 2))).

(** include/qdp_primspinmat.h 1666-1680: operator*(PSpinMatrix<T,4>, GammaConstDP<4,15>). *)
Definition mat_DP_gamma15 (m : smat T) : smat T :=
  by_rows (fun i =>
  Quad (- (el2 m i 2))
       (- (el2 m i 3))
       (- (el2 m i 0))
       (- (el2 m i 1))).

(** include/qdp_primspinvec.h 1374-1398: spinProjectDir0Minus(PSpinVector<T,4>). *)
Definition spinProjectDir0Minus (v : quad T) : T * T :=
  (el v 0 - timesI (el v 3),
   el v 1 - timesI (el v 2)).

(** include/qdp_primspinvec.h 1401-1425: spinProjectDir1Minus(PSpinVector<T,4>). *)
Definition spinProjectDir1Minus (v : quad T) : T * T :=
  (el v 0 + el v 3,
   el v 1 - el v 2).

(** include/qdp_primspinvec.h 1428-1452: spinProjectDir2Minus(PSpinVector<T,4>). *)
Definition spinProjectDir2Minus (v : quad T) : T * T :=
  (el v 0 - timesI (el v 2),
   el v 1 + timesI (el v 3)).

(** include/qdp_primspinvec.h 1455-1479: spinProjectDir3Minus(PSpinVector<T,4>). *)
Definition spinProjectDir3Minus (v : quad T) : T * T :=
  (el v 0 - el v 2,
   el v 1 - el v 3).

(** include/qdp_primspinvec.h 1482-1506: spinProjectDir0Plus(PSpinVector<T,4>). *)
Definition spinProjectDir0Plus (v : quad T) : T * T :=
  (el v 0 + timesI (el v 3),
   el v 1 + timesI (el v 2)).

(** include/qdp_primspinvec.h 1509-1533: spinProjectDir1Plus(PSpinVector<T,4>). *)
Definition spinProjectDir1Plus (v : quad T) : T * T :=
  (el v 0 - el v 3,
   el v 1 + el v 2).

(** include/qdp_primspinvec.h 1536-1560: spinProjectDir2Plus(PSpinVector<T,4>). *)
Definition spinProjectDir2Plus (v : quad T) : T * T :=
  (el v 0 + timesI (el v 2),
   el v 1 - timesI (el v 3)).

(** include/qdp_primspinvec.h 1563-1587: spinProjectDir3Plus(PSpinVector<T,4>). *)
Definition spinProjectDir3Plus (v : quad T) : T * T :=
  (el v 0 + el v 2,
   el v 1 + el v 3).

(** include/qdp_primspinvec.h 1593-1604: spinReconstructDir0Minus(PSpinVector<T,2>). *)
Definition spinReconstructDir0Minus (h : T * T) : quad T :=
  Quad (fst h)
       (snd h)
       (timesI (snd h))
       (timesI (fst h)).

(** include/qdp_primspinvec.h 1607-1618: spinReconstructDir1Minus(PSpinVector<T,2>). *)
Definition spinReconstructDir1Minus (h : T * T) : quad T :=
  Quad (fst h)
       (snd h)
       (- (snd h))
       (fst h).

(** include/qdp_primspinvec.h 1622-1633: spinReconstructDir2Minus(PSpinVector<T,2>). *)
Definition spinReconstructDir2Minus (h : T * T) : quad T :=
  Quad (fst h)
       (snd h)
       (timesI (fst h))
       (timesMinusI (snd h)).

(** include/qdp_primspinvec.h 1636-1647: spinReconstructDir3Minus(PSpinVector<T,2>). *)
Definition spinReconstructDir3Minus (h : T * T) : quad T :=
  Quad (fst h)
       (snd h)
       (- (fst h))
       (- (snd h)).

(** include/qdp_primspinvec.h 1650-1661: spinReconstructDir0Plus(PSpinVector<T,2>). *)
Definition spinReconstructDir0Plus (h : T * T) : quad T :=
  Quad (fst h)
       (snd h)
       (timesMinusI (snd h))
       (timesMinusI (fst h)).

(** include/qdp_primspinvec.h 1664-1675: spinReconstructDir1Plus(PSpinVector<T,2>). *)
Definition spinReconstructDir1Plus (h : T * T) : quad T :=
  Quad (fst h)
       (snd h)
       (snd h)
       (- (fst h)).

(** include/qdp_primspinvec.h 1678-1689: spinReconstructDir2Plus(PSpinVector<T,2>). *)
Definition spinReconstructDir2Plus (h : T * T) : quad T :=
  Quad (fst h)
       (snd h)
       (timesMinusI (fst h))
       (timesI (snd h)).

(** include/qdp_primspinvec.h 1692-1703: spinReconstructDir3Plus(PSpinVector<T,2>). *)
Definition spinReconstructDir3Plus (h : T * T) : quad T :=
  Quad (fst h)
       (snd h)
       (fst h)
       (snd h).

(** include/qdp_primspinvec.h 1937-1948: chiralProjectPlus(PSpinVector<T,4>). *)
Definition chiralProjectPlus_vec (v : quad T) : quad T :=
  Quad (el v 0)
       (el v 1)
       (zero)
       (zero).

(** include/qdp_primspinvec.h 1952-1963: chiralProjectMinus(PSpinVector<T,4>). *)
Definition chiralProjectMinus_vec (v : quad T) : quad T :=
  Quad (zero)
       (zero)
       (el v 2)
       (el v 3).

(** include/qdp_primspinmat.h 1686-1700: chiralProjectPlus(PSpinMatrix<T,4>). *)
Definition chiralProjectPlus_mat (m : smat T) : smat T :=
  by_columns (fun i =>
  Quad (el2 m 0 i)
       (el2 m 1 i)
       (zero)
       (zero)).

(** include/qdp_primspinmat.h 1704-1718: chiralProjectMinus(PSpinMatrix<T,4>). *)
Definition chiralProjectMinus_mat (m : smat T) : smat T :=
  by_columns (fun i =>
  Quad (zero)
       (zero)
       (el2 m 2 i)
       (el2 m 3 i)).

(** The overload chosen for GammaConst<4,n> / GammaConstDP<4,n>: there is one for
    each n from 0 to 15 and none otherwise (the program does not compile). *)
Definition gamma_vec_table (b : basis) : list (quad T -> quad T) :=
  match b with
  | DeGrandRossi => [gamma0_vec; gamma1_vec; gamma2_vec; gamma3_vec; gamma4_vec; gamma5_vec; gamma6_vec; gamma7_vec; gamma8_vec; gamma9_vec; gamma10_vec; gamma11_vec; gamma12_vec; gamma13_vec; gamma14_vec; gamma15_vec]
  | DiracPauli => [DP_gamma0_vec; DP_gamma1_vec; DP_gamma2_vec; DP_gamma3_vec; DP_gamma4_vec; DP_gamma5_vec; DP_gamma6_vec; DP_gamma7_vec; DP_gamma8_vec; DP_gamma9_vec; DP_gamma10_vec; DP_gamma11_vec; DP_gamma12_vec; DP_gamma13_vec; DP_gamma14_vec; DP_gamma15_vec]
  end.

Definition gamma_mat_table (b : basis) : list (smat T -> smat T) :=
  match b with
  | DeGrandRossi => [gamma0_mat; gamma1_mat; gamma2_mat; gamma3_mat; gamma4_mat; gamma5_mat; gamma6_mat; gamma7_mat; gamma8_mat; gamma9_mat; gamma10_mat; gamma11_mat; gamma12_mat; gamma13_mat; gamma14_mat; gamma15_mat]
  | DiracPauli => [DP_gamma0_mat; DP_gamma1_mat; DP_gamma2_mat; DP_gamma3_mat; DP_gamma4_mat; DP_gamma5_mat; DP_gamma6_mat; DP_gamma7_mat; DP_gamma8_mat; DP_gamma9_mat; DP_gamma10_mat; DP_gamma11_mat; DP_gamma12_mat; DP_gamma13_mat; DP_gamma14_mat; DP_gamma15_mat]
  end.

Definition mat_gamma_table (b : basis) : list (smat T -> smat T) :=
  match b with
  | DeGrandRossi => [mat_gamma0; mat_gamma1; mat_gamma2; mat_gamma3; mat_gamma4; mat_gamma5; mat_gamma6; mat_gamma7; mat_gamma8; mat_gamma9; mat_gamma10; mat_gamma11; mat_gamma12; mat_gamma13; mat_gamma14; mat_gamma15]
  | DiracPauli => [mat_DP_gamma0; mat_DP_gamma1; mat_DP_gamma2; mat_DP_gamma3; mat_DP_gamma4; mat_DP_gamma5; mat_DP_gamma6; mat_DP_gamma7; mat_DP_gamma8; mat_DP_gamma9; mat_DP_gamma10; mat_DP_gamma11; mat_DP_gamma12; mat_DP_gamma13; mat_DP_gamma14; mat_DP_gamma15]
  end.

(** GammaConst<4,n> * v, GammaConst<4,n> * m, m * GammaConst<4,n> and the same
    for GammaConstDP; [None] when there is no such overload. *)
Definition gamma_vec (b : basis) (n : nat) (v : quad T) : option (quad T) :=
  option_map (fun f => f v) (nth_error (gamma_vec_table b) n).
Definition gamma_mat (b : basis) (n : nat) (m : smat T) : option (smat T) :=
  option_map (fun f => f m) (nth_error (gamma_mat_table b) n).
Definition mat_gamma (b : basis) (n : nat) (m : smat T) : option (smat T) :=
  option_map (fun f => f m) (nth_error (mat_gamma_table b) n).

(** include/qdp_primgamma.h 12-37 GammaType(int), 175-199
    OpGammaTypeMultiply, 202-227 OpMultiplyGammaType, 275-326 the same for
    GammaTypeDP: the run-time interface.  The C++ function builds an array of
    sixteen function pointers, in the order of the template constant, and calls
    the one selected by the integer without checking it; an index outside the
    array is undefined behaviour. *)
Definition call {A B} (s : list (A -> B)) (m : Z) (x : A) : res B :=
  if (m <? 0)%Z then Undef
  else match nth_error s (Z.to_nat m) with
       | Some f => Val (f x)
       | None => Undef
       end.
Definition gamma_type_vec (b : basis) (m : Z) (v : quad T) : res (quad T) :=
  call (gamma_vec_table b) m v.
Definition gamma_type_mat (b : basis) (m : Z) (x : smat T) : res (smat T) :=
  call (gamma_mat_table b) m x.
Definition mat_gamma_type (b : basis) (m : Z) (x : smat T) : res (smat T) :=
  call (mat_gamma_table b) m x.

(** include/qdp_globalfuncs.h 341-401: spinProject(s, mu, isign).  exit(1) is
    [Abort]. *)
Definition spinProject (v : quad T) (mu isign : Z) : res (T * T) :=
  if (isign =? -1)%Z then
    match mu with
    | 0%Z => Val (spinProjectDir0Minus v)
    | 1%Z => Val (spinProjectDir1Minus v)
    | 2%Z => Val (spinProjectDir2Minus v)
    | 3%Z => Val (spinProjectDir3Minus v)
    | _ => Abort
    end
  else if (isign =? 1)%Z then
    match mu with
    | 0%Z => Val (spinProjectDir0Plus v)
    | 1%Z => Val (spinProjectDir1Plus v)
    | 2%Z => Val (spinProjectDir2Plus v)
    | 3%Z => Val (spinProjectDir3Plus v)
    | _ => Abort
    end
  else Abort.

(** include/qdp_globalfuncs.h 404-453: spinReconstruct(s, mu, isign). *)
Definition spinReconstruct (h : T * T) (mu isign : Z) : res (quad T) :=
  if (isign =? -1)%Z then
    match mu with
    | 0%Z => Val (spinReconstructDir0Minus h)
    | 1%Z => Val (spinReconstructDir1Minus h)
    | 2%Z => Val (spinReconstructDir2Minus h)
    | 3%Z => Val (spinReconstructDir3Minus h)
    | _ => Abort
    end
  else if (isign =? 1)%Z then
    match mu with
    | 0%Z => Val (spinReconstructDir0Plus h)
    | 1%Z => Val (spinReconstructDir1Plus h)
    | 2%Z => Val (spinReconstructDir2Plus h)
    | 3%Z => Val (spinReconstructDir3Plus h)
    | _ => Abort
    end
  else Abort.

End Ops.

(** * Element types *)

(** include/qdp_reality.h: RComplex<T> with the operations 1830-1838 (unary
    minus), 1842-1850 (+), 1876-1884 (-), 2245-2253 (timesI), 2276-2284
    (timesMinusI), zero_rep (both parts zero); T any ring. *)
Section Complex.
Context {R : Type} (zero : R) (add sub : R -> R -> R) (neg : R -> R).
Definition rcomplex_ops : elem_ops (R * R) := {|
  e_zero := (zero, zero);
  e_add := fun l r => (add (fst l) (fst r), add (snd l) (snd r));
  e_sub := fun l r => (sub (fst l) (fst r), sub (snd l) (snd r));
  e_neg := fun l => (neg (fst l), neg (snd l));
  e_timesI := fun l => (neg (snd l), fst l);
  e_timesMinusI := fun l => (snd l, neg (fst l))
|}.
End Complex.

(** include/qdp_primmatrix.h 1300-1330, include/qdp_primvector.h, and the
    element-wise operators of PMatrix and PVector: colour vectors and matrices
    apply each operation to every one of their elements.  [n] elements are an
    [n]-fold product. *)
Fixpoint tuple (T : Type) (n : nat) : Type :=
  match n with 0 => unit | S k => (T * tuple T k)%type end.
Fixpoint tuple_ops {T : Type} (O : elem_ops T) (n : nat) : elem_ops (tuple T n) :=
  match n return elem_ops (tuple T n) with
  | 0 => ElemOps unit tt (fun _ _ => tt) (fun _ _ => tt) (fun _ => tt) (fun _ => tt)
                 (fun _ => tt)
  | S k =>
      let P := tuple_ops O k in
      {| e_zero := (e_zero O, e_zero P);
         e_add := fun l r => (e_add O (fst l) (fst r), e_add P (snd l) (snd r));
         e_sub := fun l r => (e_sub O (fst l) (fst r), e_sub P (snd l) (snd r));
         e_neg := fun l => (e_neg O (fst l), e_neg P (snd l));
         e_timesI := fun l => (e_timesI O (fst l), e_timesI P (snd l));
         e_timesMinusI := fun l => (e_timesMinusI O (fst l), e_timesMinusI P (snd l)) |}
  end.

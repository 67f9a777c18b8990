(** What the gamma matrices are, stated without the hand-written products:
    explicit 4x4 matrices built from the Pauli matrices (docs/manual.tex
    2391-2464, docs/usr/spin.dox), their products, and what it means for a
    matrix to act on a spinor. *)
From Coq Require Import ZArith List.
From Verif Require Import GammaModel.
Import ListNotations.

(** * Gaussian integers and 4x4 matrices of them *)

Definition gint : Type := (Z * Z)%type.        (* real part, imaginary part *)
Definition g0 : gint := (0, 0)%Z.
Definition g1 : gint := (1, 0)%Z.
Definition gi : gint := (0, 1)%Z.
Definition gadd (x y : gint) : gint := (fst x + fst y, snd x + snd y)%Z.
Definition gneg (x : gint) : gint := (- fst x, - snd x)%Z.
Definition gmul (x y : gint) : gint :=
  (fst x * fst y - snd x * snd y, fst x * snd y + snd x * fst y)%Z.
Definition gconj (x : gint) : gint := (fst x, - snd x)%Z.

(** A matrix is the list of its rows. *)
Definition gmat : Type := list (list gint).
Definition entry (M : gmat) (i j : nat) : gint := nth j (nth i M []) g0.
Definition matrix (n : nat) (f : nat -> nat -> gint) : gmat :=
  map (fun i => map (f i) (seq 0 n)) (seq 0 n).
Definition gsum (l : list gint) : gint := fold_right gadd g0 l.
Definition mmul (M N : gmat) : gmat :=
  matrix 4 (fun i j => gsum (map (fun k => gmul (entry M i k) (entry N k j)) (seq 0 4))).
Definition madd (M N : gmat) : gmat :=
  matrix 4 (fun i j => gadd (entry M i j) (entry N i j)).
Definition mscale (c : gint) (M : gmat) : gmat :=
  matrix 4 (fun i j => gmul c (entry M i j)).
Definition adjoint (M : gmat) : gmat := matrix 4 (fun i j => gconj (entry M j i)).
Definition unit_matrix : gmat := matrix 4 (fun i j => if Nat.eqb i j then g1 else g0).
Definition zero_matrix : gmat := matrix 4 (fun _ _ => g0).
Definition mtrace (M : gmat) : gint := gsum (map (fun i => entry M i i) (seq 0 4)).

(** Pauli matrices. *)
Definition id2 : gmat := [[g1; g0]; [g0; g1]].
Definition sigma1 : gmat := [[g0; g1]; [g1; g0]].
Definition sigma2 : gmat := [[g0; gneg gi]; [gi; g0]].
Definition sigma3 : gmat := [[g1; g0]; [g0; gneg g1]].
Definition zero2 : gmat := [[g0; g0]; [g0; g0]].
Definition scale2 (c : gint) (M : gmat) : gmat := map (map (gmul c)) M.
(** (a b; c d) from four 2x2 blocks. *)
Definition blocks (a b c d : gmat) : gmat :=
  [nth 0 a [] ++ nth 0 b []; nth 1 a [] ++ nth 1 b [];
   nth 0 c [] ++ nth 0 d []; nth 1 c [] ++ nth 1 d []].

(** The four generators: the chiral basis of the manual, and the Dirac-Pauli
    basis. *)
Definition generator (b : basis) (mu : nat) : gmat :=
  match b, mu with
  | DeGrandRossi, 0 => blocks zero2 (scale2 gi sigma1) (scale2 (gneg gi) sigma1) zero2
  | DeGrandRossi, 1 => blocks zero2 (scale2 (gneg gi) sigma2) (scale2 gi sigma2) zero2
  | DeGrandRossi, 2 => blocks zero2 (scale2 gi sigma3) (scale2 (gneg gi) sigma3) zero2
  | DeGrandRossi, _ => blocks zero2 id2 id2 zero2
  | DiracPauli, 0 => blocks zero2 (scale2 (gneg gi) sigma1) (scale2 gi sigma1) zero2
  | DiracPauli, 1 => blocks zero2 (scale2 (gneg gi) sigma2) (scale2 gi sigma2) zero2
  | DiracPauli, 2 => blocks zero2 (scale2 (gneg gi) sigma3) (scale2 gi sigma3) zero2
  | DiracPauli, _ => blocks id2 zero2 zero2 (scale2 (gneg g1) id2)
  end.

(** Gamma(n) = gamma_0^{n_0} gamma_1^{n_1} gamma_2^{n_2} gamma_3^{n_3}, n_i the
    bits of n. *)
Definition power (M : gmat) (bit : bool) : gmat := if bit then M else unit_matrix.
Definition Gamma (b : basis) (n : nat) : gmat :=
  mmul (power (generator b 0) (Nat.testbit n 0))
 (mmul (power (generator b 1) (Nat.testbit n 1))
 (mmul (power (generator b 2) (Nat.testbit n 2))
       (power (generator b 3) (Nat.testbit n 3)))).

(** * What is required of the element type *)

(** The laws of unary minus and of multiplication by i; IEEE numbers satisfy
    them as well as exact ones. *)
Record unary_laws {T} (O : elem_ops T) : Prop := {
  neg_neg : forall x, e_neg O (e_neg O x) = x;
  timesI_twice : forall x, e_timesI O (e_timesI O x) = e_neg O x;
  timesI_neg : forall x, e_timesI O (e_neg O x) = e_neg O (e_timesI O x);
  timesMinusI_is : forall x, e_timesMinusI O x = e_neg O (e_timesI O x)
}.

(** The elements form a commutative group on which multiplication by i is
    additive and squares to -1. *)
Record elem_laws {T} (O : elem_ops T) : Prop := {
  add_assoc : forall x y z, e_add O x (e_add O y z) = e_add O (e_add O x y) z;
  add_comm : forall x y, e_add O x y = e_add O y x;
  add_zero : forall x, e_add O x (e_zero O) = x;
  add_neg : forall x, e_add O x (e_neg O x) = e_zero O;
  sub_is : forall x y, e_sub O x y = e_add O x (e_neg O y);
  timesI_add : forall x y, e_timesI O (e_add O x y) = e_add O (e_timesI O x) (e_timesI O y);
  timesI_sq : forall x, e_timesI O (e_timesI O x) = e_neg O x;
  timesMI_is : forall x, e_timesMinusI O x = e_neg O (e_timesI O x)
}.

(** * Matrices acting on spinors *)

Section Action.
Context {T : Type} (O : elem_ops T).

(** z x for an integer z, (a + b i) x for a Gaussian integer. *)
Definition zscale (z : Z) (x : T) : T :=
  match z with
  | Z0 => e_zero O
  | Zpos p => Pos.iter (e_add O x) (e_zero O) p
  | Zneg p => e_neg O (Pos.iter (e_add O x) (e_zero O) p)
  end.
Definition gscale (c : gint) (x : T) : T :=
  e_add O (zscale (fst c) x) (zscale (snd c) (e_timesI O x)).

(** sum_{k<4} f k *)
Definition sum4 (f : nat -> T) : T :=
  e_add O (f 0) (e_add O (f 1) (e_add O (f 2) (f 3))).

(** The vector M v, the matrix M x and the matrix x M. *)
Definition is_mat_vec (M : gmat) (v w : quad T) : Prop :=
  forall i, i < 4 -> el w i = sum4 (fun k => gscale (entry M i k) (el v k)).
Definition is_mat_mat (M : gmat) (x y : smat T) : Prop :=
  forall i j, i < 4 -> j < 4 ->
    el2 y i j = sum4 (fun k => gscale (entry M i k) (el2 x k j)).
Definition is_mat_right (x : smat T) (M : gmat) (y : smat T) : Prop :=
  forall i j, i < 4 -> j < 4 ->
    el2 y i j = sum4 (fun k => gscale (entry M k j) (el2 x i k)).

(** Element-wise operations on spinors and spin matrices. *)
Definition vmap (f : T -> T) (v : quad T) : quad T :=
  Quad (f (el v 0)) (f (el v 1)) (f (el v 2)) (f (el v 3)).
Definition vmap2 (f : T -> T -> T) (v w : quad T) : quad T :=
  Quad (f (el v 0) (el w 0)) (f (el v 1) (el w 1)) (f (el v 2) (el w 2)) (f (el v 3) (el w 3)).

(** Column j of a spin matrix. *)
Definition column (m : smat T) (j : nat) : quad T :=
  Quad (el2 m 0 j) (el2 m 1 j) (el2 m 2 j) (el2 m 3 j).

(** One factor of a product of generators: gamma_mu v if the bit is set, v if
    not. *)
Definition then_gamma (b : basis) (mu : nat) (bit : bool) (v : option (quad T)) : option (quad T) :=
  match v with
  | Some v => if bit then gamma_vec O b (2 ^ mu) v else Some v
  | None => None
  end.

(** x + y for s = 1, x - y otherwise. *)
Definition plus_minus (s : Z) (x y : T) : T :=
  if (s =? 1)%Z then e_add O x y else e_sub O x y.

End Action.

(** The sign with which Gamma(m) Gamma(n) = sign Gamma(m xor n): one minus sign
    for every pair of generators i of Gamma(m) and j of Gamma(n) with i > j. *)
Definition odd_swaps (m n : nat) : bool :=
  fold_right xorb false
    (flat_map (fun i => map (fun j => andb (Nat.testbit m i) (Nat.testbit n j)) (seq 0 i))
              (seq 0 4)).

(** * Complex spinors *)

Section Complex.
Context {R : Type} (radd rmul rsub : R -> R -> R) (ropp : R -> R).
(** conj(x) y *)
Definition cdot (x y : R * R) : R * R :=
  (radd (rmul (fst x) (fst y)) (rmul (snd x) (snd y)),
   rsub (rmul (fst x) (snd y)) (rmul (snd x) (fst y))).
Definition cplus (x y : R * R) : R * R := (radd (fst x) (fst y), radd (snd x) (snd y)).
(** sum_i conj(u_i) v_i *)
Definition hermitian_product (u v : quad (R * R)) : R * R :=
  cplus (cdot (el u 0) (el v 0)) (cplus (cdot (el u 1) (el v 1))
 (cplus (cdot (el u 2) (el v 2)) (cdot (el u 3) (el v 3)))).
End Complex.

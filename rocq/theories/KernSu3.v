(** The 3x3 matrix and vector products of include/scalarsite_generic/, transcribed by a script into the
    language of KernLang.v, statement by statement.

    An object of 3x3 complex numbers is a run of 18 reals, elem(i,j) being the complex number 3 i + j
    (PMatrix: T F[N*N], elem(i,j) = F[j+N*i], qdp_primmatrix.h 158-162); a vector of three is a run of
    six (qdp_primvector.h); a complex number is (real, imag). *)
From Coq Require Import ZArith List String.
From Verif Require Import KernLang.
Import ListNotations.
Local Open Scope Z_scope.
Local Open Scope string_scope.

Definition re (p : string) (k : Z) : place := At p (IC (2 * k)).
Definition im (p : string) (k : Z) : place := At p (IC (2 * k + 1)).
Definition elem (p : string) (k : Z) : exp * exp := (Rd (re p k), Rd (im p k)).

(** operator+ of complex numbers, qdp_reality.h 1840-1850. *)
Definition plus (l r : exp * exp) : exp * exp := (Add (fst l) (fst r), Add (snd l) (snd r)).
(** adjMultiply, qdp_reality.h 1942-1958. *)
Definition adjMultiply (l r : exp * exp) : exp * exp :=
  (Add (Mul (fst l) (fst r)) (Mul (snd l) (snd r)), Sub (Mul (fst l) (snd r)) (Mul (snd l) (fst r))).
(** multiplyAdj, qdp_reality.h 1961-1976. *)
Definition multiplyAdj (l r : exp * exp) : exp * exp :=
  (Add (Mul (fst l) (fst r)) (Mul (snd l) (snd r)), Sub (Mul (snd l) (fst r)) (Mul (fst l) (snd r))).
(** adjMultiplyAdj, qdp_reality.h 1979-1994. *)
Definition adjMultiplyAdj (l r : exp * exp) : exp * exp :=
  (Sub (Mul (fst l) (fst r)) (Mul (snd l) (snd r)), Neg (Add (Mul (fst l) (snd r)) (Mul (snd l) (fst r)))).
(** Assignment of a complex number: the right hand side is a temporary. *)
Definition assign (p : string) (k : Z) (e : exp * exp) : stmt :=
  seq [Assign "re" (fst e); Assign "im" (snd e); Store (re p k) (V "re"); Store (im p k) (V "im")].

(** [_inline_generic_mult_su3_nn], generic_mult_nn.h 1-113. *)
Definition mult_su3_nn : stmt := seq [
  Store (re "cc" 0) (Mul (Rd (re "aa" 0)) (Rd (re "bb" 0)));
  StoreSub (re "cc" 0) (Mul (Rd (im "aa" 0)) (Rd (im "bb" 0)));
  StoreAdd (re "cc" 0) (Mul (Rd (re "aa" 1)) (Rd (re "bb" 3)));
  StoreSub (re "cc" 0) (Mul (Rd (im "aa" 1)) (Rd (im "bb" 3)));
  StoreAdd (re "cc" 0) (Mul (Rd (re "aa" 2)) (Rd (re "bb" 6)));
  StoreSub (re "cc" 0) (Mul (Rd (im "aa" 2)) (Rd (im "bb" 6)));
  Store (im "cc" 0) (Mul (Rd (re "aa" 0)) (Rd (im "bb" 0)));
  StoreAdd (im "cc" 0) (Mul (Rd (im "aa" 0)) (Rd (re "bb" 0)));
  StoreAdd (im "cc" 0) (Mul (Rd (re "aa" 1)) (Rd (im "bb" 3)));
  StoreAdd (im "cc" 0) (Mul (Rd (im "aa" 1)) (Rd (re "bb" 3)));
  StoreAdd (im "cc" 0) (Mul (Rd (re "aa" 2)) (Rd (im "bb" 6)));
  StoreAdd (im "cc" 0) (Mul (Rd (im "aa" 2)) (Rd (re "bb" 6)));
  Store (re "cc" 3) (Mul (Rd (re "aa" 3)) (Rd (re "bb" 0)));
  StoreSub (re "cc" 3) (Mul (Rd (im "aa" 3)) (Rd (im "bb" 0)));
  StoreAdd (re "cc" 3) (Mul (Rd (re "aa" 4)) (Rd (re "bb" 3)));
  StoreSub (re "cc" 3) (Mul (Rd (im "aa" 4)) (Rd (im "bb" 3)));
  StoreAdd (re "cc" 3) (Mul (Rd (re "aa" 5)) (Rd (re "bb" 6)));
  StoreSub (re "cc" 3) (Mul (Rd (im "aa" 5)) (Rd (im "bb" 6)));
  Store (im "cc" 3) (Mul (Rd (re "aa" 3)) (Rd (im "bb" 0)));
  StoreAdd (im "cc" 3) (Mul (Rd (im "aa" 3)) (Rd (re "bb" 0)));
  StoreAdd (im "cc" 3) (Mul (Rd (re "aa" 4)) (Rd (im "bb" 3)));
  StoreAdd (im "cc" 3) (Mul (Rd (im "aa" 4)) (Rd (re "bb" 3)));
  StoreAdd (im "cc" 3) (Mul (Rd (re "aa" 5)) (Rd (im "bb" 6)));
  StoreAdd (im "cc" 3) (Mul (Rd (im "aa" 5)) (Rd (re "bb" 6)));
  Store (re "cc" 6) (Mul (Rd (re "aa" 6)) (Rd (re "bb" 0)));
  StoreSub (re "cc" 6) (Mul (Rd (im "aa" 6)) (Rd (im "bb" 0)));
  StoreAdd (re "cc" 6) (Mul (Rd (re "aa" 7)) (Rd (re "bb" 3)));
  StoreSub (re "cc" 6) (Mul (Rd (im "aa" 7)) (Rd (im "bb" 3)));
  StoreAdd (re "cc" 6) (Mul (Rd (re "aa" 8)) (Rd (re "bb" 6)));
  StoreSub (re "cc" 6) (Mul (Rd (im "aa" 8)) (Rd (im "bb" 6)));
  Store (im "cc" 6) (Mul (Rd (re "aa" 6)) (Rd (im "bb" 0)));
  StoreAdd (im "cc" 6) (Mul (Rd (im "aa" 6)) (Rd (re "bb" 0)));
  StoreAdd (im "cc" 6) (Mul (Rd (re "aa" 7)) (Rd (im "bb" 3)));
  StoreAdd (im "cc" 6) (Mul (Rd (im "aa" 7)) (Rd (re "bb" 3)));
  StoreAdd (im "cc" 6) (Mul (Rd (re "aa" 8)) (Rd (im "bb" 6)));
  StoreAdd (im "cc" 6) (Mul (Rd (im "aa" 8)) (Rd (re "bb" 6)));
  Store (re "cc" 1) (Mul (Rd (re "aa" 0)) (Rd (re "bb" 1)));
  StoreSub (re "cc" 1) (Mul (Rd (im "aa" 0)) (Rd (im "bb" 1)));
  StoreAdd (re "cc" 1) (Mul (Rd (re "aa" 1)) (Rd (re "bb" 4)));
  StoreSub (re "cc" 1) (Mul (Rd (im "aa" 1)) (Rd (im "bb" 4)));
  StoreAdd (re "cc" 1) (Mul (Rd (re "aa" 2)) (Rd (re "bb" 7)));
  StoreSub (re "cc" 1) (Mul (Rd (im "aa" 2)) (Rd (im "bb" 7)));
  Store (im "cc" 1) (Mul (Rd (re "aa" 0)) (Rd (im "bb" 1)));
  StoreAdd (im "cc" 1) (Mul (Rd (im "aa" 0)) (Rd (re "bb" 1)));
  StoreAdd (im "cc" 1) (Mul (Rd (re "aa" 1)) (Rd (im "bb" 4)));
  StoreAdd (im "cc" 1) (Mul (Rd (im "aa" 1)) (Rd (re "bb" 4)));
  StoreAdd (im "cc" 1) (Mul (Rd (re "aa" 2)) (Rd (im "bb" 7)));
  StoreAdd (im "cc" 1) (Mul (Rd (im "aa" 2)) (Rd (re "bb" 7)));
  Store (re "cc" 4) (Mul (Rd (re "aa" 3)) (Rd (re "bb" 1)));
  StoreSub (re "cc" 4) (Mul (Rd (im "aa" 3)) (Rd (im "bb" 1)));
  StoreAdd (re "cc" 4) (Mul (Rd (re "aa" 4)) (Rd (re "bb" 4)));
  StoreSub (re "cc" 4) (Mul (Rd (im "aa" 4)) (Rd (im "bb" 4)));
  StoreAdd (re "cc" 4) (Mul (Rd (re "aa" 5)) (Rd (re "bb" 7)));
  StoreSub (re "cc" 4) (Mul (Rd (im "aa" 5)) (Rd (im "bb" 7)));
  Store (im "cc" 4) (Mul (Rd (re "aa" 3)) (Rd (im "bb" 1)));
  StoreAdd (im "cc" 4) (Mul (Rd (im "aa" 3)) (Rd (re "bb" 1)));
  StoreAdd (im "cc" 4) (Mul (Rd (re "aa" 4)) (Rd (im "bb" 4)));
  StoreAdd (im "cc" 4) (Mul (Rd (im "aa" 4)) (Rd (re "bb" 4)));
  StoreAdd (im "cc" 4) (Mul (Rd (re "aa" 5)) (Rd (im "bb" 7)));
  StoreAdd (im "cc" 4) (Mul (Rd (im "aa" 5)) (Rd (re "bb" 7)));
  Store (re "cc" 7) (Mul (Rd (re "aa" 6)) (Rd (re "bb" 1)));
  StoreSub (re "cc" 7) (Mul (Rd (im "aa" 6)) (Rd (im "bb" 1)));
  StoreAdd (re "cc" 7) (Mul (Rd (re "aa" 7)) (Rd (re "bb" 4)));
  StoreSub (re "cc" 7) (Mul (Rd (im "aa" 7)) (Rd (im "bb" 4)));
  StoreAdd (re "cc" 7) (Mul (Rd (re "aa" 8)) (Rd (re "bb" 7)));
  StoreSub (re "cc" 7) (Mul (Rd (im "aa" 8)) (Rd (im "bb" 7)));
  Store (im "cc" 7) (Mul (Rd (re "aa" 6)) (Rd (im "bb" 1)));
  StoreAdd (im "cc" 7) (Mul (Rd (im "aa" 6)) (Rd (re "bb" 1)));
  StoreAdd (im "cc" 7) (Mul (Rd (re "aa" 7)) (Rd (im "bb" 4)));
  StoreAdd (im "cc" 7) (Mul (Rd (im "aa" 7)) (Rd (re "bb" 4)));
  StoreAdd (im "cc" 7) (Mul (Rd (re "aa" 8)) (Rd (im "bb" 7)));
  StoreAdd (im "cc" 7) (Mul (Rd (im "aa" 8)) (Rd (re "bb" 7)));
  Store (re "cc" 2) (Mul (Rd (re "aa" 0)) (Rd (re "bb" 2)));
  StoreSub (re "cc" 2) (Mul (Rd (im "aa" 0)) (Rd (im "bb" 2)));
  StoreAdd (re "cc" 2) (Mul (Rd (re "aa" 1)) (Rd (re "bb" 5)));
  StoreSub (re "cc" 2) (Mul (Rd (im "aa" 1)) (Rd (im "bb" 5)));
  StoreAdd (re "cc" 2) (Mul (Rd (re "aa" 2)) (Rd (re "bb" 8)));
  StoreSub (re "cc" 2) (Mul (Rd (im "aa" 2)) (Rd (im "bb" 8)));
  Store (im "cc" 2) (Mul (Rd (re "aa" 0)) (Rd (im "bb" 2)));
  StoreAdd (im "cc" 2) (Mul (Rd (im "aa" 0)) (Rd (re "bb" 2)));
  StoreAdd (im "cc" 2) (Mul (Rd (re "aa" 1)) (Rd (im "bb" 5)));
  StoreAdd (im "cc" 2) (Mul (Rd (im "aa" 1)) (Rd (re "bb" 5)));
  StoreAdd (im "cc" 2) (Mul (Rd (re "aa" 2)) (Rd (im "bb" 8)));
  StoreAdd (im "cc" 2) (Mul (Rd (im "aa" 2)) (Rd (re "bb" 8)));
  Store (re "cc" 5) (Mul (Rd (re "aa" 3)) (Rd (re "bb" 2)));
  StoreSub (re "cc" 5) (Mul (Rd (im "aa" 3)) (Rd (im "bb" 2)));
  StoreAdd (re "cc" 5) (Mul (Rd (re "aa" 4)) (Rd (re "bb" 5)));
  StoreSub (re "cc" 5) (Mul (Rd (im "aa" 4)) (Rd (im "bb" 5)));
  StoreAdd (re "cc" 5) (Mul (Rd (re "aa" 5)) (Rd (re "bb" 8)));
  StoreSub (re "cc" 5) (Mul (Rd (im "aa" 5)) (Rd (im "bb" 8)));
  Store (im "cc" 5) (Mul (Rd (re "aa" 3)) (Rd (im "bb" 2)));
  StoreAdd (im "cc" 5) (Mul (Rd (im "aa" 3)) (Rd (re "bb" 2)));
  StoreAdd (im "cc" 5) (Mul (Rd (re "aa" 4)) (Rd (im "bb" 5)));
  StoreAdd (im "cc" 5) (Mul (Rd (im "aa" 4)) (Rd (re "bb" 5)));
  StoreAdd (im "cc" 5) (Mul (Rd (re "aa" 5)) (Rd (im "bb" 8)));
  StoreAdd (im "cc" 5) (Mul (Rd (im "aa" 5)) (Rd (re "bb" 8)));
  Store (re "cc" 8) (Mul (Rd (re "aa" 6)) (Rd (re "bb" 2)));
  StoreSub (re "cc" 8) (Mul (Rd (im "aa" 6)) (Rd (im "bb" 2)));
  StoreAdd (re "cc" 8) (Mul (Rd (re "aa" 7)) (Rd (re "bb" 5)));
  StoreSub (re "cc" 8) (Mul (Rd (im "aa" 7)) (Rd (im "bb" 5)));
  StoreAdd (re "cc" 8) (Mul (Rd (re "aa" 8)) (Rd (re "bb" 8)));
  StoreSub (re "cc" 8) (Mul (Rd (im "aa" 8)) (Rd (im "bb" 8)));
  Store (im "cc" 8) (Mul (Rd (re "aa" 6)) (Rd (im "bb" 2)));
  StoreAdd (im "cc" 8) (Mul (Rd (im "aa" 6)) (Rd (re "bb" 2)));
  StoreAdd (im "cc" 8) (Mul (Rd (re "aa" 7)) (Rd (im "bb" 5)));
  StoreAdd (im "cc" 8) (Mul (Rd (im "aa" 7)) (Rd (re "bb" 5)));
  StoreAdd (im "cc" 8) (Mul (Rd (re "aa" 8)) (Rd (im "bb" 8)));
  StoreAdd (im "cc" 8) (Mul (Rd (im "aa" 8)) (Rd (re "bb" 8)))].

(** [_inline_generic_mult_su3_an], generic_mult_an.h 1-32. *)
Definition mult_su3_an : stmt := seq [
  assign "cc" 0 (plus (plus (adjMultiply (elem "aa" 0) (elem "bb" 0)) (adjMultiply (elem "aa" 3) (elem "bb" 3))) (adjMultiply (elem "aa" 6) (elem "bb" 6)));
  assign "cc" 3 (plus (plus (adjMultiply (elem "aa" 1) (elem "bb" 0)) (adjMultiply (elem "aa" 4) (elem "bb" 3))) (adjMultiply (elem "aa" 7) (elem "bb" 6)));
  assign "cc" 6 (plus (plus (adjMultiply (elem "aa" 2) (elem "bb" 0)) (adjMultiply (elem "aa" 5) (elem "bb" 3))) (adjMultiply (elem "aa" 8) (elem "bb" 6)));
  assign "cc" 1 (plus (plus (adjMultiply (elem "aa" 0) (elem "bb" 1)) (adjMultiply (elem "aa" 3) (elem "bb" 4))) (adjMultiply (elem "aa" 6) (elem "bb" 7)));
  assign "cc" 4 (plus (plus (adjMultiply (elem "aa" 1) (elem "bb" 1)) (adjMultiply (elem "aa" 4) (elem "bb" 4))) (adjMultiply (elem "aa" 7) (elem "bb" 7)));
  assign "cc" 7 (plus (plus (adjMultiply (elem "aa" 2) (elem "bb" 1)) (adjMultiply (elem "aa" 5) (elem "bb" 4))) (adjMultiply (elem "aa" 8) (elem "bb" 7)));
  assign "cc" 2 (plus (plus (adjMultiply (elem "aa" 0) (elem "bb" 2)) (adjMultiply (elem "aa" 3) (elem "bb" 5))) (adjMultiply (elem "aa" 6) (elem "bb" 8)));
  assign "cc" 5 (plus (plus (adjMultiply (elem "aa" 1) (elem "bb" 2)) (adjMultiply (elem "aa" 4) (elem "bb" 5))) (adjMultiply (elem "aa" 7) (elem "bb" 8)));
  assign "cc" 8 (plus (plus (adjMultiply (elem "aa" 2) (elem "bb" 2)) (adjMultiply (elem "aa" 5) (elem "bb" 5))) (adjMultiply (elem "aa" 8) (elem "bb" 8)))].

(** [_inline_generic_mult_su3_na], generic_mult_na.h 1-32. *)
Definition mult_su3_na : stmt := seq [
  assign "cc" 0 (plus (plus (multiplyAdj (elem "aa" 0) (elem "bb" 0)) (multiplyAdj (elem "aa" 1) (elem "bb" 1))) (multiplyAdj (elem "aa" 2) (elem "bb" 2)));
  assign "cc" 3 (plus (plus (multiplyAdj (elem "aa" 3) (elem "bb" 0)) (multiplyAdj (elem "aa" 4) (elem "bb" 1))) (multiplyAdj (elem "aa" 5) (elem "bb" 2)));
  assign "cc" 6 (plus (plus (multiplyAdj (elem "aa" 6) (elem "bb" 0)) (multiplyAdj (elem "aa" 7) (elem "bb" 1))) (multiplyAdj (elem "aa" 8) (elem "bb" 2)));
  assign "cc" 1 (plus (plus (multiplyAdj (elem "aa" 0) (elem "bb" 3)) (multiplyAdj (elem "aa" 1) (elem "bb" 4))) (multiplyAdj (elem "aa" 2) (elem "bb" 5)));
  assign "cc" 4 (plus (plus (multiplyAdj (elem "aa" 3) (elem "bb" 3)) (multiplyAdj (elem "aa" 4) (elem "bb" 4))) (multiplyAdj (elem "aa" 5) (elem "bb" 5)));
  assign "cc" 7 (plus (plus (multiplyAdj (elem "aa" 6) (elem "bb" 3)) (multiplyAdj (elem "aa" 7) (elem "bb" 4))) (multiplyAdj (elem "aa" 8) (elem "bb" 5)));
  assign "cc" 2 (plus (plus (multiplyAdj (elem "aa" 0) (elem "bb" 6)) (multiplyAdj (elem "aa" 1) (elem "bb" 7))) (multiplyAdj (elem "aa" 2) (elem "bb" 8)));
  assign "cc" 5 (plus (plus (multiplyAdj (elem "aa" 3) (elem "bb" 6)) (multiplyAdj (elem "aa" 4) (elem "bb" 7))) (multiplyAdj (elem "aa" 5) (elem "bb" 8)));
  assign "cc" 8 (plus (plus (multiplyAdj (elem "aa" 6) (elem "bb" 6)) (multiplyAdj (elem "aa" 7) (elem "bb" 7))) (multiplyAdj (elem "aa" 8) (elem "bb" 8)))].

(** [_inline_generic_mult_su3_aa], generic_mult_aa.h 1-32. *)
Definition mult_su3_aa : stmt := seq [
  assign "cc" 0 (plus (plus (adjMultiplyAdj (elem "aa" 0) (elem "bb" 0)) (adjMultiplyAdj (elem "aa" 3) (elem "bb" 1))) (adjMultiplyAdj (elem "aa" 6) (elem "bb" 2)));
  assign "cc" 3 (plus (plus (adjMultiplyAdj (elem "aa" 1) (elem "bb" 0)) (adjMultiplyAdj (elem "aa" 4) (elem "bb" 1))) (adjMultiplyAdj (elem "aa" 7) (elem "bb" 2)));
  assign "cc" 6 (plus (plus (adjMultiplyAdj (elem "aa" 2) (elem "bb" 0)) (adjMultiplyAdj (elem "aa" 5) (elem "bb" 1))) (adjMultiplyAdj (elem "aa" 8) (elem "bb" 2)));
  assign "cc" 1 (plus (plus (adjMultiplyAdj (elem "aa" 0) (elem "bb" 3)) (adjMultiplyAdj (elem "aa" 3) (elem "bb" 4))) (adjMultiplyAdj (elem "aa" 6) (elem "bb" 5)));
  assign "cc" 4 (plus (plus (adjMultiplyAdj (elem "aa" 1) (elem "bb" 3)) (adjMultiplyAdj (elem "aa" 4) (elem "bb" 4))) (adjMultiplyAdj (elem "aa" 7) (elem "bb" 5)));
  assign "cc" 7 (plus (plus (adjMultiplyAdj (elem "aa" 2) (elem "bb" 3)) (adjMultiplyAdj (elem "aa" 5) (elem "bb" 4))) (adjMultiplyAdj (elem "aa" 8) (elem "bb" 5)));
  assign "cc" 2 (plus (plus (adjMultiplyAdj (elem "aa" 0) (elem "bb" 6)) (adjMultiplyAdj (elem "aa" 3) (elem "bb" 7))) (adjMultiplyAdj (elem "aa" 6) (elem "bb" 8)));
  assign "cc" 5 (plus (plus (adjMultiplyAdj (elem "aa" 1) (elem "bb" 6)) (adjMultiplyAdj (elem "aa" 4) (elem "bb" 7))) (adjMultiplyAdj (elem "aa" 7) (elem "bb" 8)));
  assign "cc" 8 (plus (plus (adjMultiplyAdj (elem "aa" 2) (elem "bb" 6)) (adjMultiplyAdj (elem "aa" 5) (elem "bb" 7))) (adjMultiplyAdj (elem "aa" 8) (elem "bb" 8)))].

(** [_inline_generic_mult_su3_mat_vec], generic_mat_vec.h 16-73. *)
Definition mult_su3_mat_vec : stmt := seq [
  Store (re "cc" 0) (Mul (Rd (re "aa" 0)) (Rd (re "bb" 0)));
  StoreSub (re "cc" 0) (Mul (Rd (im "aa" 0)) (Rd (im "bb" 0)));
  StoreAdd (re "cc" 0) (Mul (Rd (re "aa" 1)) (Rd (re "bb" 1)));
  StoreSub (re "cc" 0) (Mul (Rd (im "aa" 1)) (Rd (im "bb" 1)));
  StoreAdd (re "cc" 0) (Mul (Rd (re "aa" 2)) (Rd (re "bb" 2)));
  StoreSub (re "cc" 0) (Mul (Rd (im "aa" 2)) (Rd (im "bb" 2)));
  Store (im "cc" 0) (Mul (Rd (re "aa" 0)) (Rd (im "bb" 0)));
  StoreAdd (im "cc" 0) (Mul (Rd (im "aa" 0)) (Rd (re "bb" 0)));
  StoreAdd (im "cc" 0) (Mul (Rd (re "aa" 1)) (Rd (im "bb" 1)));
  StoreAdd (im "cc" 0) (Mul (Rd (im "aa" 1)) (Rd (re "bb" 1)));
  StoreAdd (im "cc" 0) (Mul (Rd (re "aa" 2)) (Rd (im "bb" 2)));
  StoreAdd (im "cc" 0) (Mul (Rd (im "aa" 2)) (Rd (re "bb" 2)));
  Store (re "cc" 1) (Mul (Rd (re "aa" 3)) (Rd (re "bb" 0)));
  StoreSub (re "cc" 1) (Mul (Rd (im "aa" 3)) (Rd (im "bb" 0)));
  StoreAdd (re "cc" 1) (Mul (Rd (re "aa" 4)) (Rd (re "bb" 1)));
  StoreSub (re "cc" 1) (Mul (Rd (im "aa" 4)) (Rd (im "bb" 1)));
  StoreAdd (re "cc" 1) (Mul (Rd (re "aa" 5)) (Rd (re "bb" 2)));
  StoreSub (re "cc" 1) (Mul (Rd (im "aa" 5)) (Rd (im "bb" 2)));
  Store (im "cc" 1) (Mul (Rd (re "aa" 3)) (Rd (im "bb" 0)));
  StoreAdd (im "cc" 1) (Mul (Rd (im "aa" 3)) (Rd (re "bb" 0)));
  StoreAdd (im "cc" 1) (Mul (Rd (re "aa" 4)) (Rd (im "bb" 1)));
  StoreAdd (im "cc" 1) (Mul (Rd (im "aa" 4)) (Rd (re "bb" 1)));
  StoreAdd (im "cc" 1) (Mul (Rd (re "aa" 5)) (Rd (im "bb" 2)));
  StoreAdd (im "cc" 1) (Mul (Rd (im "aa" 5)) (Rd (re "bb" 2)));
  Store (re "cc" 2) (Mul (Rd (re "aa" 6)) (Rd (re "bb" 0)));
  StoreSub (re "cc" 2) (Mul (Rd (im "aa" 6)) (Rd (im "bb" 0)));
  StoreAdd (re "cc" 2) (Mul (Rd (re "aa" 7)) (Rd (re "bb" 1)));
  StoreSub (re "cc" 2) (Mul (Rd (im "aa" 7)) (Rd (im "bb" 1)));
  StoreAdd (re "cc" 2) (Mul (Rd (re "aa" 8)) (Rd (re "bb" 2)));
  StoreSub (re "cc" 2) (Mul (Rd (im "aa" 8)) (Rd (im "bb" 2)));
  Store (im "cc" 2) (Mul (Rd (re "aa" 6)) (Rd (im "bb" 0)));
  StoreAdd (im "cc" 2) (Mul (Rd (im "aa" 6)) (Rd (re "bb" 0)));
  StoreAdd (im "cc" 2) (Mul (Rd (re "aa" 7)) (Rd (im "bb" 1)));
  StoreAdd (im "cc" 2) (Mul (Rd (im "aa" 7)) (Rd (re "bb" 1)));
  StoreAdd (im "cc" 2) (Mul (Rd (re "aa" 8)) (Rd (im "bb" 2)));
  StoreAdd (im "cc" 2) (Mul (Rd (im "aa" 8)) (Rd (re "bb" 2)))].

(** [_inline_generic_mult_adj_su3_mat_vec], generic_mat_vec.h 81-138. *)
Definition mult_adj_su3_mat_vec : stmt := seq [
  Store (re "cc" 0) (Mul (Rd (re "aa" 0)) (Rd (re "bb" 0)));
  StoreAdd (re "cc" 0) (Mul (Rd (im "aa" 0)) (Rd (im "bb" 0)));
  StoreAdd (re "cc" 0) (Mul (Rd (re "aa" 3)) (Rd (re "bb" 1)));
  StoreAdd (re "cc" 0) (Mul (Rd (im "aa" 3)) (Rd (im "bb" 1)));
  StoreAdd (re "cc" 0) (Mul (Rd (re "aa" 6)) (Rd (re "bb" 2)));
  StoreAdd (re "cc" 0) (Mul (Rd (im "aa" 6)) (Rd (im "bb" 2)));
  Store (im "cc" 0) (Mul (Rd (re "aa" 0)) (Rd (im "bb" 0)));
  StoreSub (im "cc" 0) (Mul (Rd (im "aa" 0)) (Rd (re "bb" 0)));
  StoreAdd (im "cc" 0) (Mul (Rd (re "aa" 3)) (Rd (im "bb" 1)));
  StoreSub (im "cc" 0) (Mul (Rd (im "aa" 3)) (Rd (re "bb" 1)));
  StoreAdd (im "cc" 0) (Mul (Rd (re "aa" 6)) (Rd (im "bb" 2)));
  StoreSub (im "cc" 0) (Mul (Rd (im "aa" 6)) (Rd (re "bb" 2)));
  Store (re "cc" 1) (Mul (Rd (re "aa" 1)) (Rd (re "bb" 0)));
  StoreAdd (re "cc" 1) (Mul (Rd (im "aa" 1)) (Rd (im "bb" 0)));
  StoreAdd (re "cc" 1) (Mul (Rd (re "aa" 4)) (Rd (re "bb" 1)));
  StoreAdd (re "cc" 1) (Mul (Rd (im "aa" 4)) (Rd (im "bb" 1)));
  StoreAdd (re "cc" 1) (Mul (Rd (re "aa" 7)) (Rd (re "bb" 2)));
  StoreAdd (re "cc" 1) (Mul (Rd (im "aa" 7)) (Rd (im "bb" 2)));
  Store (im "cc" 1) (Mul (Rd (re "aa" 1)) (Rd (im "bb" 0)));
  StoreSub (im "cc" 1) (Mul (Rd (im "aa" 1)) (Rd (re "bb" 0)));
  StoreAdd (im "cc" 1) (Mul (Rd (re "aa" 4)) (Rd (im "bb" 1)));
  StoreSub (im "cc" 1) (Mul (Rd (im "aa" 4)) (Rd (re "bb" 1)));
  StoreAdd (im "cc" 1) (Mul (Rd (re "aa" 7)) (Rd (im "bb" 2)));
  StoreSub (im "cc" 1) (Mul (Rd (im "aa" 7)) (Rd (re "bb" 2)));
  Store (re "cc" 2) (Mul (Rd (re "aa" 2)) (Rd (re "bb" 0)));
  StoreAdd (re "cc" 2) (Mul (Rd (im "aa" 2)) (Rd (im "bb" 0)));
  StoreAdd (re "cc" 2) (Mul (Rd (re "aa" 5)) (Rd (re "bb" 1)));
  StoreAdd (re "cc" 2) (Mul (Rd (im "aa" 5)) (Rd (im "bb" 1)));
  StoreAdd (re "cc" 2) (Mul (Rd (re "aa" 8)) (Rd (re "bb" 2)));
  StoreAdd (re "cc" 2) (Mul (Rd (im "aa" 8)) (Rd (im "bb" 2)));
  Store (im "cc" 2) (Mul (Rd (re "aa" 2)) (Rd (im "bb" 0)));
  StoreSub (im "cc" 2) (Mul (Rd (im "aa" 2)) (Rd (re "bb" 0)));
  StoreAdd (im "cc" 2) (Mul (Rd (re "aa" 5)) (Rd (im "bb" 1)));
  StoreSub (im "cc" 2) (Mul (Rd (im "aa" 5)) (Rd (re "bb" 1)));
  StoreAdd (im "cc" 2) (Mul (Rd (re "aa" 8)) (Rd (im "bb" 2)));
  StoreSub (im "cc" 2) (Mul (Rd (im "aa" 8)) (Rd (re "bb" 2)))].

(** [_inline_generic_add_su3_vector], generic_addvec.h 1-6. *)
Definition add_su3_vector : stmt := seq [
  assign "cc" 0 (plus (elem "aa" 0) (elem "bb" 0));
  assign "cc" 1 (plus (elem "aa" 1) (elem "bb" 1));
  assign "cc" 2 (plus (elem "aa" 2) (elem "bb" 2))].

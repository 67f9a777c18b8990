(** The vector kernels with gamma_5 and chiral projectors, transcribed into the language of KernLang.v by
    a script: one statement per C statement, in the order of the source; declarations without a
    value are dropped; a local array a[4][3][2] is one run of 24 cells, a[i][j][k] being cell
    (i*3+j)*2+k; Ns = 4, Nc = 3.  All files are in include/scalarsite_generic/. *)
From Coq Require Import ZArith List String.
From Verif Require Import KernLang.
Import ListNotations.
Local Open Scope Z_scope.
Local Open Scope list_scope.
Local Open Scope string_scope.

(** [axpyz_g5ProjPlus], generic_blas_vaxpy3_g5.h 14-169. *)
Definition axpyz_g5ProjPlus : stmt := seq [
  Assign "a" (Rd (At "scalep" (IC 0)));
  Int "index_x" (IC 0);
  Int "index_y" (IC 0);
  Int "index_z" (IC 0);
  For "counter" (IC 0) (IV "n_4vec") 1 (seq [
    Assign "x0r" (Rd (AtInc "InScale" "index_x"));
    Assign "y0r" (Rd (AtInc "Add" "index_y"));
    Assign "z0r" (Add (Mul (V "a") (V "x0r")) (V "y0r"));
    Store (AtInc "Out" "index_z") (V "z0r");
    Assign "x0i" (Rd (AtInc "InScale" "index_x"));
    Assign "y0i" (Rd (AtInc "Add" "index_y"));
    Assign "z0i" (Add (Mul (V "a") (V "x0i")) (V "y0i"));
    Store (AtInc "Out" "index_z") (V "z0i");
    Assign "x1r" (Rd (AtInc "InScale" "index_x"));
    Assign "y1r" (Rd (AtInc "Add" "index_y"));
    Assign "z1r" (Add (Mul (V "a") (V "x1r")) (V "y1r"));
    Store (AtInc "Out" "index_z") (V "z1r");
    Assign "x1i" (Rd (AtInc "InScale" "index_x"));
    Assign "y1i" (Rd (AtInc "Add" "index_y"));
    Assign "z1i" (Add (Mul (V "a") (V "x1i")) (V "y1i"));
    Store (AtInc "Out" "index_z") (V "z1i");
    Assign "x2r" (Rd (AtInc "InScale" "index_x"));
    Assign "y2r" (Rd (AtInc "Add" "index_y"));
    Assign "z2r" (Add (Mul (V "a") (V "x2r")) (V "y2r"));
    Store (AtInc "Out" "index_z") (V "z2r");
    Assign "x2i" (Rd (AtInc "InScale" "index_x"));
    Assign "y2i" (Rd (AtInc "Add" "index_y"));
    Assign "z2i" (Add (Mul (V "a") (V "x2i")) (V "y2i"));
    Store (AtInc "Out" "index_z") (V "z2i");
    Assign "x0r" (Rd (AtInc "InScale" "index_x"));
    Assign "y0r" (Rd (AtInc "Add" "index_y"));
    Assign "z0r" (Add (Mul (V "a") (V "x0r")) (V "y0r"));
    Store (AtInc "Out" "index_z") (V "z0r");
    Assign "x0i" (Rd (AtInc "InScale" "index_x"));
    Assign "y0i" (Rd (AtInc "Add" "index_y"));
    Assign "z0i" (Add (Mul (V "a") (V "x0i")) (V "y0i"));
    Store (AtInc "Out" "index_z") (V "z0i");
    Assign "x1r" (Rd (AtInc "InScale" "index_x"));
    Assign "y1r" (Rd (AtInc "Add" "index_y"));
    Assign "z1r" (Add (Mul (V "a") (V "x1r")) (V "y1r"));
    Store (AtInc "Out" "index_z") (V "z1r");
    Assign "x1i" (Rd (AtInc "InScale" "index_x"));
    Assign "y1i" (Rd (AtInc "Add" "index_y"));
    Assign "z1i" (Add (Mul (V "a") (V "x1i")) (V "y1i"));
    Store (AtInc "Out" "index_z") (V "z1i");
    Assign "x2r" (Rd (AtInc "InScale" "index_x"));
    Assign "y2r" (Rd (AtInc "Add" "index_y"));
    Assign "z2r" (Add (Mul (V "a") (V "x2r")) (V "y2r"));
    Store (AtInc "Out" "index_z") (V "z2r");
    Assign "x2i" (Rd (AtInc "InScale" "index_x"));
    Assign "y2i" (Rd (AtInc "Add" "index_y"));
    Assign "z2i" (Add (Mul (V "a") (V "x2i")) (V "y2i"));
    Store (AtInc "Out" "index_z") (V "z2i");
    Int "index_y" (IAdd (IV "index_y") (IC 12));
    Assign "x0r" (Rd (AtInc "InScale" "index_x"));
    Assign "z0r" (Mul (V "a") (V "x0r"));
    Store (AtInc "Out" "index_z") (V "z0r");
    Assign "x0i" (Rd (AtInc "InScale" "index_x"));
    Assign "z0i" (Mul (V "a") (V "x0i"));
    Store (AtInc "Out" "index_z") (V "z0i");
    Assign "x1r" (Rd (AtInc "InScale" "index_x"));
    Assign "z1r" (Mul (V "a") (V "x1r"));
    Store (AtInc "Out" "index_z") (V "z1r");
    Assign "x1i" (Rd (AtInc "InScale" "index_x"));
    Assign "z1i" (Mul (V "a") (V "x1i"));
    Store (AtInc "Out" "index_z") (V "z1i");
    Assign "x2r" (Rd (AtInc "InScale" "index_x"));
    Assign "z2r" (Mul (V "a") (V "x2r"));
    Store (AtInc "Out" "index_z") (V "z2r");
    Assign "x2i" (Rd (AtInc "InScale" "index_x"));
    Assign "z2i" (Mul (V "a") (V "x2i"));
    Store (AtInc "Out" "index_z") (V "z2i");
    Assign "x0r" (Rd (AtInc "InScale" "index_x"));
    Assign "y0r" (Rd (At "Add" (IV "index_y")));
    Assign "z0r" (Mul (V "a") (V "x0r"));
    Store (AtInc "Out" "index_z") (V "z0r");
    Assign "x0i" (Rd (AtInc "InScale" "index_x"));
    Assign "z0i" (Mul (V "a") (V "x0i"));
    Store (AtInc "Out" "index_z") (V "z0i");
    Assign "x1r" (Rd (AtInc "InScale" "index_x"));
    Assign "z1r" (Mul (V "a") (V "x1r"));
    Store (AtInc "Out" "index_z") (V "z1r");
    Assign "x1i" (Rd (AtInc "InScale" "index_x"));
    Assign "z1i" (Mul (V "a") (V "x1i"));
    Store (AtInc "Out" "index_z") (V "z1i");
    Assign "x2r" (Rd (AtInc "InScale" "index_x"));
    Assign "z2r" (Mul (V "a") (V "x2r"));
    Store (AtInc "Out" "index_z") (V "z2r");
    Assign "x2i" (Rd (AtInc "InScale" "index_x"));
    Assign "z2i" (Mul (V "a") (V "x2i"));
    Store (AtInc "Out" "index_z") (V "z2i")])].

(** [axpyz_g5ProjMinus], generic_blas_vaxpy3_g5.h 172-315. *)
Definition axpyz_g5ProjMinus : stmt := seq [
  Assign "a" (Rd (At "scalep" (IC 0)));
  Int "index_x" (IC 0);
  Int "index_y" (IC 0);
  Int "index_z" (IC 0);
  For "counter" (IC 0) (IV "n_4vec") 1 (seq [
    Int "index_y" (IAdd (IV "index_y") (IC 12));
    Assign "x0r" (Rd (AtInc "InScale" "index_x"));
    Store (AtInc "Out" "index_z") (Mul (V "a") (V "x0r"));
    Assign "x0i" (Rd (AtInc "InScale" "index_x"));
    Store (AtInc "Out" "index_z") (Mul (V "a") (V "x0i"));
    Assign "x1r" (Rd (AtInc "InScale" "index_x"));
    Store (AtInc "Out" "index_z") (Mul (V "a") (V "x1r"));
    Assign "x1i" (Rd (AtInc "InScale" "index_x"));
    Store (AtInc "Out" "index_z") (Mul (V "a") (V "x1i"));
    Assign "x2r" (Rd (AtInc "InScale" "index_x"));
    Store (AtInc "Out" "index_z") (Mul (V "a") (V "x2r"));
    Assign "x2i" (Rd (AtInc "InScale" "index_x"));
    Store (AtInc "Out" "index_z") (Mul (V "a") (V "x2i"));
    Assign "x0r" (Rd (AtInc "InScale" "index_x"));
    Store (AtInc "Out" "index_z") (Mul (V "a") (V "x0r"));
    Assign "x0i" (Rd (AtInc "InScale" "index_x"));
    Store (AtInc "Out" "index_z") (Mul (V "a") (V "x0i"));
    Assign "x1r" (Rd (AtInc "InScale" "index_x"));
    Store (AtInc "Out" "index_z") (Mul (V "a") (V "x1r"));
    Assign "x1i" (Rd (AtInc "InScale" "index_x"));
    Store (AtInc "Out" "index_z") (Mul (V "a") (V "x1i"));
    Assign "x2r" (Rd (AtInc "InScale" "index_x"));
    Store (AtInc "Out" "index_z") (Mul (V "a") (V "x2r"));
    Assign "x2i" (Rd (AtInc "InScale" "index_x"));
    Store (AtInc "Out" "index_z") (Mul (V "a") (V "x2i"));
    Assign "x0r" (Rd (AtInc "InScale" "index_x"));
    Assign "y0r" (Rd (AtInc "Add" "index_y"));
    Assign "z0r" (Add (Mul (V "a") (V "x0r")) (V "y0r"));
    Store (AtInc "Out" "index_z") (V "z0r");
    Assign "x0i" (Rd (AtInc "InScale" "index_x"));
    Assign "y0i" (Rd (AtInc "Add" "index_y"));
    Assign "z0i" (Add (Mul (V "a") (V "x0i")) (V "y0i"));
    Store (AtInc "Out" "index_z") (V "z0i");
    Assign "x1r" (Rd (AtInc "InScale" "index_x"));
    Assign "y1r" (Rd (AtInc "Add" "index_y"));
    Assign "z1r" (Add (Mul (V "a") (V "x1r")) (V "y1r"));
    Store (AtInc "Out" "index_z") (V "z1r");
    Assign "x1i" (Rd (AtInc "InScale" "index_x"));
    Assign "y1i" (Rd (AtInc "Add" "index_y"));
    Assign "z1i" (Add (Mul (V "a") (V "x1i")) (V "y1i"));
    Store (AtInc "Out" "index_z") (V "z1i");
    Assign "x2r" (Rd (AtInc "InScale" "index_x"));
    Assign "y2r" (Rd (AtInc "Add" "index_y"));
    Assign "z2r" (Add (Mul (V "a") (V "x2r")) (V "y2r"));
    Store (AtInc "Out" "index_z") (V "z2r");
    Assign "x2i" (Rd (AtInc "InScale" "index_x"));
    Assign "y2i" (Rd (AtInc "Add" "index_y"));
    Assign "z2i" (Add (Mul (V "a") (V "x2i")) (V "y2i"));
    Store (AtInc "Out" "index_z") (V "z2i");
    Assign "x0r" (Rd (AtInc "InScale" "index_x"));
    Assign "y0r" (Rd (AtInc "Add" "index_y"));
    Assign "z0r" (Add (Mul (V "a") (V "x0r")) (V "y0r"));
    Store (AtInc "Out" "index_z") (V "z0r");
    Assign "x0i" (Rd (AtInc "InScale" "index_x"));
    Assign "y0i" (Rd (AtInc "Add" "index_y"));
    Assign "z0i" (Add (Mul (V "a") (V "x0i")) (V "y0i"));
    Store (AtInc "Out" "index_z") (V "z0i");
    Assign "x1r" (Rd (AtInc "InScale" "index_x"));
    Assign "y1r" (Rd (AtInc "Add" "index_y"));
    Assign "z1r" (Add (Mul (V "a") (V "x1r")) (V "y1r"));
    Store (AtInc "Out" "index_z") (V "z1r");
    Assign "x1i" (Rd (AtInc "InScale" "index_x"));
    Assign "y1i" (Rd (AtInc "Add" "index_y"));
    Assign "z1i" (Add (Mul (V "a") (V "x1i")) (V "y1i"));
    Store (AtInc "Out" "index_z") (V "z1i");
    Assign "x2r" (Rd (AtInc "InScale" "index_x"));
    Assign "y2r" (Rd (AtInc "Add" "index_y"));
    Assign "z2r" (Add (Mul (V "a") (V "x2r")) (V "y2r"));
    Store (AtInc "Out" "index_z") (V "z2r");
    Assign "x2i" (Rd (AtInc "InScale" "index_x"));
    Assign "y2i" (Rd (AtInc "Add" "index_y"));
    Assign "z2i" (Add (Mul (V "a") (V "x2i")) (V "y2i"));
    Store (AtInc "Out" "index_z") (V "z2i")])].

(** [axmyz_g5ProjPlus], generic_blas_vaxpy3_g5.h 321-464. *)
Definition axmyz_g5ProjPlus : stmt := seq [
  Assign "a" (Rd (At "scalep" (IC 0)));
  Int "index_x" (IC 0);
  Int "index_y" (IC 0);
  Int "index_z" (IC 0);
  For "counter" (IC 0) (IV "n_4vec") 1 (seq [
    Assign "x0r" (Rd (AtInc "InScale" "index_x"));
    Assign "y0r" (Rd (AtInc "Add" "index_y"));
    Assign "z0r" (Sub (Mul (V "a") (V "x0r")) (V "y0r"));
    Store (AtInc "Out" "index_z") (V "z0r");
    Assign "x0i" (Rd (AtInc "InScale" "index_x"));
    Assign "y0i" (Rd (AtInc "Add" "index_y"));
    Assign "z0i" (Sub (Mul (V "a") (V "x0i")) (V "y0i"));
    Store (AtInc "Out" "index_z") (V "z0i");
    Assign "x1r" (Rd (AtInc "InScale" "index_x"));
    Assign "y1r" (Rd (AtInc "Add" "index_y"));
    Assign "z1r" (Sub (Mul (V "a") (V "x1r")) (V "y1r"));
    Store (AtInc "Out" "index_z") (V "z1r");
    Assign "x1i" (Rd (AtInc "InScale" "index_x"));
    Assign "y1i" (Rd (AtInc "Add" "index_y"));
    Assign "z1i" (Sub (Mul (V "a") (V "x1i")) (V "y1i"));
    Store (AtInc "Out" "index_z") (V "z1i");
    Assign "x2r" (Rd (AtInc "InScale" "index_x"));
    Assign "y2r" (Rd (AtInc "Add" "index_y"));
    Assign "z2r" (Sub (Mul (V "a") (V "x2r")) (V "y2r"));
    Store (AtInc "Out" "index_z") (V "z2r");
    Assign "x2i" (Rd (AtInc "InScale" "index_x"));
    Assign "y2i" (Rd (AtInc "Add" "index_y"));
    Assign "z2i" (Sub (Mul (V "a") (V "x2i")) (V "y2i"));
    Store (AtInc "Out" "index_z") (V "z2i");
    Assign "x0r" (Rd (AtInc "InScale" "index_x"));
    Assign "y0r" (Rd (AtInc "Add" "index_y"));
    Assign "z0r" (Sub (Mul (V "a") (V "x0r")) (V "y0r"));
    Store (AtInc "Out" "index_z") (V "z0r");
    Assign "x0i" (Rd (AtInc "InScale" "index_x"));
    Assign "y0i" (Rd (AtInc "Add" "index_y"));
    Assign "z0i" (Sub (Mul (V "a") (V "x0i")) (V "y0i"));
    Store (AtInc "Out" "index_z") (V "z0i");
    Assign "x1r" (Rd (AtInc "InScale" "index_x"));
    Assign "y1r" (Rd (AtInc "Add" "index_y"));
    Assign "z1r" (Sub (Mul (V "a") (V "x1r")) (V "y1r"));
    Store (AtInc "Out" "index_z") (V "z1r");
    Assign "x1i" (Rd (AtInc "InScale" "index_x"));
    Assign "y1i" (Rd (AtInc "Add" "index_y"));
    Assign "z1i" (Sub (Mul (V "a") (V "x1i")) (V "y1i"));
    Store (AtInc "Out" "index_z") (V "z1i");
    Assign "x2r" (Rd (AtInc "InScale" "index_x"));
    Assign "y2r" (Rd (AtInc "Add" "index_y"));
    Assign "z2r" (Sub (Mul (V "a") (V "x2r")) (V "y2r"));
    Store (AtInc "Out" "index_z") (V "z2r");
    Assign "x2i" (Rd (AtInc "InScale" "index_x"));
    Assign "y2i" (Rd (AtInc "Add" "index_y"));
    Assign "z2i" (Sub (Mul (V "a") (V "x2i")) (V "y2i"));
    Store (AtInc "Out" "index_z") (V "z2i");
    Int "index_y" (IAdd (IV "index_y") (IC 12));
    Assign "x0r" (Rd (AtInc "InScale" "index_x"));
    Store (AtInc "Out" "index_z") (Mul (V "a") (V "x0r"));
    Assign "x0i" (Rd (AtInc "InScale" "index_x"));
    Store (AtInc "Out" "index_z") (Mul (V "a") (V "x0i"));
    Assign "x1r" (Rd (AtInc "InScale" "index_x"));
    Store (AtInc "Out" "index_z") (Mul (V "a") (V "x1r"));
    Assign "x1i" (Rd (AtInc "InScale" "index_x"));
    Store (AtInc "Out" "index_z") (Mul (V "a") (V "x1i"));
    Assign "x2r" (Rd (AtInc "InScale" "index_x"));
    Store (AtInc "Out" "index_z") (Mul (V "a") (V "x2r"));
    Assign "x2i" (Rd (AtInc "InScale" "index_x"));
    Store (AtInc "Out" "index_z") (Mul (V "a") (V "x2i"));
    Assign "x0r" (Rd (AtInc "InScale" "index_x"));
    Store (AtInc "Out" "index_z") (Mul (V "a") (V "x0r"));
    Assign "x0i" (Rd (AtInc "InScale" "index_x"));
    Store (AtInc "Out" "index_z") (Mul (V "a") (V "x0i"));
    Assign "x1r" (Rd (AtInc "InScale" "index_x"));
    Store (AtInc "Out" "index_z") (Mul (V "a") (V "x1r"));
    Assign "x1i" (Rd (AtInc "InScale" "index_x"));
    Store (AtInc "Out" "index_z") (Mul (V "a") (V "x1i"));
    Assign "x2r" (Rd (AtInc "InScale" "index_x"));
    Store (AtInc "Out" "index_z") (Mul (V "a") (V "x2r"));
    Assign "x2i" (Rd (AtInc "InScale" "index_x"));
    Store (AtInc "Out" "index_z") (Mul (V "a") (V "x2i"))])].

(** [axmyz_g5ProjMinus], generic_blas_vaxpy3_g5.h 467-610. *)
Definition axmyz_g5ProjMinus : stmt := seq [
  Assign "a" (Rd (At "scalep" (IC 0)));
  Int "index_x" (IC 0);
  Int "index_y" (IC 0);
  Int "index_z" (IC 0);
  For "counter" (IC 0) (IV "n_4vec") 1 (seq [
    Int "index_y" (IAdd (IV "index_y") (IC 12));
    Assign "x0r" (Rd (AtInc "InScale" "index_x"));
    Store (AtInc "Out" "index_z") (Mul (V "a") (V "x0r"));
    Assign "x0i" (Rd (AtInc "InScale" "index_x"));
    Store (AtInc "Out" "index_z") (Mul (V "a") (V "x0i"));
    Assign "x1r" (Rd (AtInc "InScale" "index_x"));
    Store (AtInc "Out" "index_z") (Mul (V "a") (V "x1r"));
    Assign "x1i" (Rd (AtInc "InScale" "index_x"));
    Store (AtInc "Out" "index_z") (Mul (V "a") (V "x1i"));
    Assign "x2r" (Rd (AtInc "InScale" "index_x"));
    Store (AtInc "Out" "index_z") (Mul (V "a") (V "x2r"));
    Assign "x2i" (Rd (AtInc "InScale" "index_x"));
    Store (AtInc "Out" "index_z") (Mul (V "a") (V "x2i"));
    Assign "x0r" (Rd (AtInc "InScale" "index_x"));
    Store (AtInc "Out" "index_z") (Mul (V "a") (V "x0r"));
    Assign "x0i" (Rd (AtInc "InScale" "index_x"));
    Store (AtInc "Out" "index_z") (Mul (V "a") (V "x0i"));
    Assign "x1r" (Rd (AtInc "InScale" "index_x"));
    Store (AtInc "Out" "index_z") (Mul (V "a") (V "x1r"));
    Assign "x1i" (Rd (AtInc "InScale" "index_x"));
    Store (AtInc "Out" "index_z") (Mul (V "a") (V "x1i"));
    Assign "x2r" (Rd (AtInc "InScale" "index_x"));
    Store (AtInc "Out" "index_z") (Mul (V "a") (V "x2r"));
    Assign "x2i" (Rd (AtInc "InScale" "index_x"));
    Store (AtInc "Out" "index_z") (Mul (V "a") (V "x2i"));
    Assign "x0r" (Rd (AtInc "InScale" "index_x"));
    Assign "y0r" (Rd (AtInc "Add" "index_y"));
    Assign "z0r" (Sub (Mul (V "a") (V "x0r")) (V "y0r"));
    Store (AtInc "Out" "index_z") (V "z0r");
    Assign "x0i" (Rd (AtInc "InScale" "index_x"));
    Assign "y0i" (Rd (AtInc "Add" "index_y"));
    Assign "z0i" (Sub (Mul (V "a") (V "x0i")) (V "y0i"));
    Store (AtInc "Out" "index_z") (V "z0i");
    Assign "x1r" (Rd (AtInc "InScale" "index_x"));
    Assign "y1r" (Rd (AtInc "Add" "index_y"));
    Assign "z1r" (Sub (Mul (V "a") (V "x1r")) (V "y1r"));
    Store (AtInc "Out" "index_z") (V "z1r");
    Assign "x1i" (Rd (AtInc "InScale" "index_x"));
    Assign "y1i" (Rd (AtInc "Add" "index_y"));
    Assign "z1i" (Sub (Mul (V "a") (V "x1i")) (V "y1i"));
    Store (AtInc "Out" "index_z") (V "z1i");
    Assign "x2r" (Rd (AtInc "InScale" "index_x"));
    Assign "y2r" (Rd (AtInc "Add" "index_y"));
    Assign "z2r" (Sub (Mul (V "a") (V "x2r")) (V "y2r"));
    Store (AtInc "Out" "index_z") (V "z2r");
    Assign "x2i" (Rd (AtInc "InScale" "index_x"));
    Assign "y2i" (Rd (AtInc "Add" "index_y"));
    Assign "z2i" (Sub (Mul (V "a") (V "x2i")) (V "y2i"));
    Store (AtInc "Out" "index_z") (V "z2i");
    Assign "x0r" (Rd (AtInc "InScale" "index_x"));
    Assign "y0r" (Rd (AtInc "Add" "index_y"));
    Assign "z0r" (Sub (Mul (V "a") (V "x0r")) (V "y0r"));
    Store (AtInc "Out" "index_z") (V "z0r");
    Assign "x0i" (Rd (AtInc "InScale" "index_x"));
    Assign "y0i" (Rd (AtInc "Add" "index_y"));
    Assign "z0i" (Sub (Mul (V "a") (V "x0i")) (V "y0i"));
    Store (AtInc "Out" "index_z") (V "z0i");
    Assign "x1r" (Rd (AtInc "InScale" "index_x"));
    Assign "y1r" (Rd (AtInc "Add" "index_y"));
    Assign "z1r" (Sub (Mul (V "a") (V "x1r")) (V "y1r"));
    Store (AtInc "Out" "index_z") (V "z1r");
    Assign "x1i" (Rd (AtInc "InScale" "index_x"));
    Assign "y1i" (Rd (AtInc "Add" "index_y"));
    Assign "z1i" (Sub (Mul (V "a") (V "x1i")) (V "y1i"));
    Store (AtInc "Out" "index_z") (V "z1i");
    Assign "x2r" (Rd (AtInc "InScale" "index_x"));
    Assign "y2r" (Rd (AtInc "Add" "index_y"));
    Assign "z2r" (Sub (Mul (V "a") (V "x2r")) (V "y2r"));
    Store (AtInc "Out" "index_z") (V "z2r");
    Assign "x2i" (Rd (AtInc "InScale" "index_x"));
    Assign "y2i" (Rd (AtInc "Add" "index_y"));
    Assign "z2i" (Sub (Mul (V "a") (V "x2i")) (V "y2i"));
    Store (AtInc "Out" "index_z") (V "z2i")])].

(** [xpayz_g5ProjPlus], generic_blas_vaypx3_g5.h 15-151. *)
Definition xpayz_g5ProjPlus : stmt := seq [
  Assign "a" (Rd (At "scalep" (IC 0)));
  Int "index_x" (IC 0);
  Int "index_y" (IC 0);
  Int "index_z" (IC 0);
  For "counter" (IC 0) (IV "n_4vec") 1 (seq [
    Assign "x0r" (Rd (AtInc "Add" "index_x"));
    Assign "y0r" (Rd (AtInc "InScale" "index_y"));
    Assign "z0r" (Add (V "x0r") (Mul (V "a") (V "y0r")));
    Store (AtInc "Out" "index_z") (V "z0r");
    Assign "x0i" (Rd (AtInc "Add" "index_x"));
    Assign "y0i" (Rd (AtInc "InScale" "index_y"));
    Assign "z0i" (Add (V "x0i") (Mul (V "a") (V "y0i")));
    Store (AtInc "Out" "index_z") (V "z0i");
    Assign "x1r" (Rd (AtInc "Add" "index_x"));
    Assign "y1r" (Rd (AtInc "InScale" "index_y"));
    Assign "z1r" (Add (V "x1r") (Mul (V "a") (V "y1r")));
    Store (AtInc "Out" "index_z") (V "z1r");
    Assign "x1i" (Rd (AtInc "Add" "index_x"));
    Assign "y1i" (Rd (AtInc "InScale" "index_y"));
    Assign "z1i" (Add (V "x1i") (Mul (V "a") (V "y1i")));
    Store (AtInc "Out" "index_z") (V "z1i");
    Assign "x2r" (Rd (AtInc "Add" "index_x"));
    Assign "y2r" (Rd (AtInc "InScale" "index_y"));
    Assign "z2r" (Add (V "x2r") (Mul (V "a") (V "y2r")));
    Store (AtInc "Out" "index_z") (V "z2r");
    Assign "x2i" (Rd (AtInc "Add" "index_x"));
    Assign "y2i" (Rd (AtInc "InScale" "index_y"));
    Assign "z2i" (Add (V "x2i") (Mul (V "a") (V "y2i")));
    Store (AtInc "Out" "index_z") (V "z2i");
    Assign "x0r" (Rd (AtInc "Add" "index_x"));
    Assign "y0r" (Rd (AtInc "InScale" "index_y"));
    Assign "z0r" (Add (V "x0r") (Mul (V "a") (V "y0r")));
    Store (AtInc "Out" "index_z") (V "z0r");
    Assign "x0i" (Rd (AtInc "Add" "index_x"));
    Assign "y0i" (Rd (AtInc "InScale" "index_y"));
    Assign "z0i" (Add (V "x0i") (Mul (V "a") (V "y0i")));
    Store (AtInc "Out" "index_z") (V "z0i");
    Assign "x1r" (Rd (AtInc "Add" "index_x"));
    Assign "y1r" (Rd (AtInc "InScale" "index_y"));
    Assign "z1r" (Add (V "x1r") (Mul (V "a") (V "y1r")));
    Store (AtInc "Out" "index_z") (V "z1r");
    Assign "x1i" (Rd (AtInc "Add" "index_x"));
    Assign "y1i" (Rd (AtInc "InScale" "index_y"));
    Assign "z1i" (Add (V "x1i") (Mul (V "a") (V "y1i")));
    Store (AtInc "Out" "index_z") (V "z1i");
    Assign "x2r" (Rd (AtInc "Add" "index_x"));
    Assign "y2r" (Rd (AtInc "InScale" "index_y"));
    Assign "z2r" (Add (V "x2r") (Mul (V "a") (V "y2r")));
    Store (AtInc "Out" "index_z") (V "z2r");
    Assign "x2i" (Rd (AtInc "Add" "index_x"));
    Assign "y2i" (Rd (AtInc "InScale" "index_y"));
    Assign "z2i" (Add (V "x2i") (Mul (V "a") (V "y2i")));
    Store (AtInc "Out" "index_z") (V "z2i");
    Int "index_y" (IAdd (IV "index_y") (IC 12));
    Assign "x0r" (Rd (AtInc "Add" "index_x"));
    Assign "x0i" (Rd (AtInc "Add" "index_x"));
    Assign "x1r" (Rd (AtInc "Add" "index_x"));
    Store (AtInc "Out" "index_z") (V "x0r");
    Assign "x1i" (Rd (AtInc "Add" "index_x"));
    Store (AtInc "Out" "index_z") (V "x0i");
    Assign "x2r" (Rd (AtInc "Add" "index_x"));
    Store (AtInc "Out" "index_z") (V "x1r");
    Assign "x2i" (Rd (AtInc "Add" "index_x"));
    Store (AtInc "Out" "index_z") (V "x1i");
    Assign "x0r" (Rd (AtInc "Add" "index_x"));
    Store (AtInc "Out" "index_z") (V "x2r");
    Assign "x0i" (Rd (AtInc "Add" "index_x"));
    Store (AtInc "Out" "index_z") (V "x2i");
    Assign "x1r" (Rd (AtInc "Add" "index_x"));
    Store (AtInc "Out" "index_z") (V "x0r");
    Assign "x1i" (Rd (AtInc "Add" "index_x"));
    Store (AtInc "Out" "index_z") (V "x0i");
    Assign "x2r" (Rd (AtInc "Add" "index_x"));
    Store (AtInc "Out" "index_z") (V "x1r");
    Assign "x2i" (Rd (AtInc "Add" "index_x"));
    Store (AtInc "Out" "index_z") (V "x1i");
    Assign "x0r" (Rd (At "Add" (IV "index_x")));
    Store (AtInc "Out" "index_z") (V "x2r");
    Assign "x0i" (Rd (At "Add" (IAdd (IV "index_x") (IC 1))));
    Store (AtInc "Out" "index_z") (V "x2i")])].

(** [xpayz_g5ProjMinus], generic_blas_vaypx3_g5.h 154-287. *)
Definition xpayz_g5ProjMinus : stmt := seq [
  Assign "a" (Rd (At "scalep" (IC 0)));
  Int "index_x" (IC 0);
  Int "index_y" (IC 0);
  Int "index_z" (IC 0);
  For "counter" (IC 0) (IV "n_4vec") 1 (seq [
    Int "index_y" (IAdd (IV "index_y") (IC 12));
    Assign "x0r" (Rd (AtInc "Add" "index_x"));
    Assign "x0i" (Rd (AtInc "Add" "index_x"));
    Assign "x1r" (Rd (AtInc "Add" "index_x"));
    Store (AtInc "Out" "index_z") (V "x0r");
    Assign "x1i" (Rd (AtInc "Add" "index_x"));
    Store (AtInc "Out" "index_z") (V "x0i");
    Assign "x2r" (Rd (AtInc "Add" "index_x"));
    Store (AtInc "Out" "index_z") (V "x1r");
    Assign "x2i" (Rd (AtInc "Add" "index_x"));
    Store (AtInc "Out" "index_z") (V "x1i");
    Assign "x0r" (Rd (AtInc "Add" "index_x"));
    Store (AtInc "Out" "index_z") (V "x2r");
    Assign "x0i" (Rd (AtInc "Add" "index_x"));
    Store (AtInc "Out" "index_z") (V "x2i");
    Assign "x1r" (Rd (AtInc "Add" "index_x"));
    Store (AtInc "Out" "index_z") (V "x0r");
    Assign "x1i" (Rd (AtInc "Add" "index_x"));
    Store (AtInc "Out" "index_z") (V "x0i");
    Assign "x2r" (Rd (AtInc "Add" "index_x"));
    Store (AtInc "Out" "index_z") (V "x1r");
    Assign "x2i" (Rd (AtInc "Add" "index_x"));
    Store (AtInc "Out" "index_z") (V "x1i");
    Assign "x0r" (Rd (AtInc "Add" "index_x"));
    Store (AtInc "Out" "index_z") (V "x2r");
    Assign "x0i" (Rd (AtInc "Add" "index_x"));
    Store (AtInc "Out" "index_z") (V "x2i");
    Assign "y0r" (Rd (AtInc "InScale" "index_y"));
    Assign "z0r" (Add (V "x0r") (Mul (V "a") (V "y0r")));
    Store (AtInc "Out" "index_z") (V "z0r");
    Assign "y0i" (Rd (AtInc "InScale" "index_y"));
    Assign "z0i" (Add (V "x0i") (Mul (V "a") (V "y0i")));
    Store (AtInc "Out" "index_z") (V "z0i");
    Assign "x1r" (Rd (AtInc "Add" "index_x"));
    Assign "y1r" (Rd (AtInc "InScale" "index_y"));
    Assign "z1r" (Add (V "x1r") (Mul (V "a") (V "y1r")));
    Store (AtInc "Out" "index_z") (V "z1r");
    Assign "x1i" (Rd (AtInc "Add" "index_x"));
    Assign "y1i" (Rd (AtInc "InScale" "index_y"));
    Assign "z1i" (Add (V "x1i") (Mul (V "a") (V "y1i")));
    Store (AtInc "Out" "index_z") (V "z1i");
    Assign "x2r" (Rd (AtInc "Add" "index_x"));
    Assign "y2r" (Rd (AtInc "InScale" "index_y"));
    Assign "z2r" (Add (V "x2r") (Mul (V "a") (V "y2r")));
    Store (AtInc "Out" "index_z") (V "z2r");
    Assign "x2i" (Rd (AtInc "Add" "index_x"));
    Assign "y2i" (Rd (AtInc "InScale" "index_y"));
    Assign "z2i" (Add (V "x2i") (Mul (V "a") (V "y2i")));
    Store (AtInc "Out" "index_z") (V "z2i");
    Assign "x0r" (Rd (AtInc "Add" "index_x"));
    Assign "y0r" (Rd (AtInc "InScale" "index_y"));
    Assign "z0r" (Add (V "x0r") (Mul (V "a") (V "y0r")));
    Store (AtInc "Out" "index_z") (V "z0r");
    Assign "x0i" (Rd (AtInc "Add" "index_x"));
    Assign "y0i" (Rd (AtInc "InScale" "index_y"));
    Assign "z0i" (Add (V "x0i") (Mul (V "a") (V "y0i")));
    Store (AtInc "Out" "index_z") (V "z0i");
    Assign "x1r" (Rd (AtInc "Add" "index_x"));
    Assign "y1r" (Rd (AtInc "InScale" "index_y"));
    Assign "z1r" (Add (V "x1r") (Mul (V "a") (V "y1r")));
    Store (AtInc "Out" "index_z") (V "z1r");
    Assign "x1i" (Rd (AtInc "Add" "index_x"));
    Assign "y1i" (Rd (AtInc "InScale" "index_y"));
    Assign "z1i" (Add (V "x1i") (Mul (V "a") (V "y1i")));
    Store (AtInc "Out" "index_z") (V "z1i");
    Assign "x2r" (Rd (AtInc "Add" "index_x"));
    Assign "y2r" (Rd (AtInc "InScale" "index_y"));
    Assign "z2r" (Add (V "x2r") (Mul (V "a") (V "y2r")));
    Store (AtInc "Out" "index_z") (V "z2r");
    Assign "x2i" (Rd (AtInc "Add" "index_x"));
    Assign "y2i" (Rd (AtInc "InScale" "index_y"));
    Assign "z2i" (Add (V "x2i") (Mul (V "a") (V "y2i")));
    Store (AtInc "Out" "index_z") (V "z2i")])].

(** [xmayz_g5ProjPlus], generic_blas_vaypx3_g5.h 292-428. *)
Definition xmayz_g5ProjPlus : stmt := seq [
  Assign "a" (Rd (At "scalep" (IC 0)));
  Int "index_x" (IC 0);
  Int "index_y" (IC 0);
  Int "index_z" (IC 0);
  For "counter" (IC 0) (IV "n_4vec") 1 (seq [
    Assign "x0r" (Rd (AtInc "Add" "index_x"));
    Assign "y0r" (Rd (AtInc "InScale" "index_y"));
    Assign "z0r" (Sub (V "x0r") (Mul (V "a") (V "y0r")));
    Store (AtInc "Out" "index_z") (V "z0r");
    Assign "x0i" (Rd (AtInc "Add" "index_x"));
    Assign "y0i" (Rd (AtInc "InScale" "index_y"));
    Assign "z0i" (Sub (V "x0i") (Mul (V "a") (V "y0i")));
    Store (AtInc "Out" "index_z") (V "z0i");
    Assign "x1r" (Rd (AtInc "Add" "index_x"));
    Assign "y1r" (Rd (AtInc "InScale" "index_y"));
    Assign "z1r" (Sub (V "x1r") (Mul (V "a") (V "y1r")));
    Store (AtInc "Out" "index_z") (V "z1r");
    Assign "x1i" (Rd (AtInc "Add" "index_x"));
    Assign "y1i" (Rd (AtInc "InScale" "index_y"));
    Assign "z1i" (Sub (V "x1i") (Mul (V "a") (V "y1i")));
    Store (AtInc "Out" "index_z") (V "z1i");
    Assign "x2r" (Rd (AtInc "Add" "index_x"));
    Assign "y2r" (Rd (AtInc "InScale" "index_y"));
    Assign "z2r" (Sub (V "x2r") (Mul (V "a") (V "y2r")));
    Store (AtInc "Out" "index_z") (V "z2r");
    Assign "x2i" (Rd (AtInc "Add" "index_x"));
    Assign "y2i" (Rd (AtInc "InScale" "index_y"));
    Assign "z2i" (Sub (V "x2i") (Mul (V "a") (V "y2i")));
    Store (AtInc "Out" "index_z") (V "z2i");
    Assign "x0r" (Rd (AtInc "Add" "index_x"));
    Assign "y0r" (Rd (AtInc "InScale" "index_y"));
    Assign "z0r" (Sub (V "x0r") (Mul (V "a") (V "y0r")));
    Store (AtInc "Out" "index_z") (V "z0r");
    Assign "x0i" (Rd (AtInc "Add" "index_x"));
    Assign "y0i" (Rd (AtInc "InScale" "index_y"));
    Assign "z0i" (Sub (V "x0i") (Mul (V "a") (V "y0i")));
    Store (AtInc "Out" "index_z") (V "z0i");
    Assign "x1r" (Rd (AtInc "Add" "index_x"));
    Assign "y1r" (Rd (AtInc "InScale" "index_y"));
    Assign "z1r" (Sub (V "x1r") (Mul (V "a") (V "y1r")));
    Store (AtInc "Out" "index_z") (V "z1r");
    Assign "x1i" (Rd (AtInc "Add" "index_x"));
    Assign "y1i" (Rd (AtInc "InScale" "index_y"));
    Assign "z1i" (Sub (V "x1i") (Mul (V "a") (V "y1i")));
    Store (AtInc "Out" "index_z") (V "z1i");
    Assign "x2r" (Rd (AtInc "Add" "index_x"));
    Assign "y2r" (Rd (AtInc "InScale" "index_y"));
    Assign "z2r" (Sub (V "x2r") (Mul (V "a") (V "y2r")));
    Store (AtInc "Out" "index_z") (V "z2r");
    Assign "x2i" (Rd (AtInc "Add" "index_x"));
    Assign "y2i" (Rd (AtInc "InScale" "index_y"));
    Assign "z2i" (Sub (V "x2i") (Mul (V "a") (V "y2i")));
    Store (AtInc "Out" "index_z") (V "z2i");
    Int "index_y" (IAdd (IV "index_y") (IC 12));
    Assign "x0r" (Rd (AtInc "Add" "index_x"));
    Assign "x0i" (Rd (AtInc "Add" "index_x"));
    Assign "x1r" (Rd (AtInc "Add" "index_x"));
    Store (AtInc "Out" "index_z") (V "x0r");
    Assign "x1i" (Rd (AtInc "Add" "index_x"));
    Store (AtInc "Out" "index_z") (V "x0i");
    Assign "x2r" (Rd (AtInc "Add" "index_x"));
    Store (AtInc "Out" "index_z") (V "x1r");
    Assign "x2i" (Rd (AtInc "Add" "index_x"));
    Store (AtInc "Out" "index_z") (V "x1i");
    Assign "x0r" (Rd (AtInc "Add" "index_x"));
    Store (AtInc "Out" "index_z") (V "x2r");
    Assign "x0i" (Rd (AtInc "Add" "index_x"));
    Store (AtInc "Out" "index_z") (V "x2i");
    Assign "x1r" (Rd (AtInc "Add" "index_x"));
    Store (AtInc "Out" "index_z") (V "x0r");
    Assign "x1i" (Rd (AtInc "Add" "index_x"));
    Store (AtInc "Out" "index_z") (V "x0i");
    Assign "x2r" (Rd (AtInc "Add" "index_x"));
    Store (AtInc "Out" "index_z") (V "x1r");
    Assign "x2i" (Rd (AtInc "Add" "index_x"));
    Store (AtInc "Out" "index_z") (V "x1i");
    Assign "x0r" (Rd (At "Add" (IV "index_x")));
    Store (AtInc "Out" "index_z") (V "x2r");
    Assign "x0i" (Rd (At "Add" (IAdd (IV "index_x") (IC 1))));
    Store (AtInc "Out" "index_z") (V "x2i")])].

(** [xmayz_g5ProjMinus], generic_blas_vaypx3_g5.h 431-564. *)
Definition xmayz_g5ProjMinus : stmt := seq [
  Assign "a" (Rd (At "scalep" (IC 0)));
  Int "index_x" (IC 0);
  Int "index_y" (IC 0);
  Int "index_z" (IC 0);
  For "counter" (IC 0) (IV "n_4vec") 1 (seq [
    Int "index_y" (IAdd (IV "index_y") (IC 12));
    Assign "x0r" (Rd (AtInc "Add" "index_x"));
    Assign "x0i" (Rd (AtInc "Add" "index_x"));
    Assign "x1r" (Rd (AtInc "Add" "index_x"));
    Store (AtInc "Out" "index_z") (V "x0r");
    Assign "x1i" (Rd (AtInc "Add" "index_x"));
    Store (AtInc "Out" "index_z") (V "x0i");
    Assign "x2r" (Rd (AtInc "Add" "index_x"));
    Store (AtInc "Out" "index_z") (V "x1r");
    Assign "x2i" (Rd (AtInc "Add" "index_x"));
    Store (AtInc "Out" "index_z") (V "x1i");
    Assign "x0r" (Rd (AtInc "Add" "index_x"));
    Store (AtInc "Out" "index_z") (V "x2r");
    Assign "x0i" (Rd (AtInc "Add" "index_x"));
    Store (AtInc "Out" "index_z") (V "x2i");
    Assign "x1r" (Rd (AtInc "Add" "index_x"));
    Store (AtInc "Out" "index_z") (V "x0r");
    Assign "x1i" (Rd (AtInc "Add" "index_x"));
    Store (AtInc "Out" "index_z") (V "x0i");
    Assign "x2r" (Rd (AtInc "Add" "index_x"));
    Store (AtInc "Out" "index_z") (V "x1r");
    Assign "x2i" (Rd (AtInc "Add" "index_x"));
    Store (AtInc "Out" "index_z") (V "x1i");
    Assign "x0r" (Rd (AtInc "Add" "index_x"));
    Store (AtInc "Out" "index_z") (V "x2r");
    Assign "x0i" (Rd (AtInc "Add" "index_x"));
    Store (AtInc "Out" "index_z") (V "x2i");
    Assign "y0r" (Rd (AtInc "InScale" "index_y"));
    Assign "z0r" (Sub (V "x0r") (Mul (V "a") (V "y0r")));
    Store (AtInc "Out" "index_z") (V "z0r");
    Assign "y0i" (Rd (AtInc "InScale" "index_y"));
    Assign "z0i" (Sub (V "x0i") (Mul (V "a") (V "y0i")));
    Store (AtInc "Out" "index_z") (V "z0i");
    Assign "x1r" (Rd (AtInc "Add" "index_x"));
    Assign "y1r" (Rd (AtInc "InScale" "index_y"));
    Assign "z1r" (Sub (V "x1r") (Mul (V "a") (V "y1r")));
    Store (AtInc "Out" "index_z") (V "z1r");
    Assign "x1i" (Rd (AtInc "Add" "index_x"));
    Assign "y1i" (Rd (AtInc "InScale" "index_y"));
    Assign "z1i" (Sub (V "x1i") (Mul (V "a") (V "y1i")));
    Store (AtInc "Out" "index_z") (V "z1i");
    Assign "x2r" (Rd (AtInc "Add" "index_x"));
    Assign "y2r" (Rd (AtInc "InScale" "index_y"));
    Assign "z2r" (Sub (V "x2r") (Mul (V "a") (V "y2r")));
    Store (AtInc "Out" "index_z") (V "z2r");
    Assign "x2i" (Rd (AtInc "Add" "index_x"));
    Assign "y2i" (Rd (AtInc "InScale" "index_y"));
    Assign "z2i" (Sub (V "x2i") (Mul (V "a") (V "y2i")));
    Store (AtInc "Out" "index_z") (V "z2i");
    Assign "x0r" (Rd (AtInc "Add" "index_x"));
    Assign "y0r" (Rd (AtInc "InScale" "index_y"));
    Assign "z0r" (Sub (V "x0r") (Mul (V "a") (V "y0r")));
    Store (AtInc "Out" "index_z") (V "z0r");
    Assign "x0i" (Rd (AtInc "Add" "index_x"));
    Assign "y0i" (Rd (AtInc "InScale" "index_y"));
    Assign "z0i" (Sub (V "x0i") (Mul (V "a") (V "y0i")));
    Store (AtInc "Out" "index_z") (V "z0i");
    Assign "x1r" (Rd (AtInc "Add" "index_x"));
    Assign "y1r" (Rd (AtInc "InScale" "index_y"));
    Assign "z1r" (Sub (V "x1r") (Mul (V "a") (V "y1r")));
    Store (AtInc "Out" "index_z") (V "z1r");
    Assign "x1i" (Rd (AtInc "Add" "index_x"));
    Assign "y1i" (Rd (AtInc "InScale" "index_y"));
    Assign "z1i" (Sub (V "x1i") (Mul (V "a") (V "y1i")));
    Store (AtInc "Out" "index_z") (V "z1i");
    Assign "x2r" (Rd (AtInc "Add" "index_x"));
    Assign "y2r" (Rd (AtInc "InScale" "index_y"));
    Assign "z2r" (Sub (V "x2r") (Mul (V "a") (V "y2r")));
    Store (AtInc "Out" "index_z") (V "z2r");
    Assign "x2i" (Rd (AtInc "Add" "index_x"));
    Assign "y2i" (Rd (AtInc "InScale" "index_y"));
    Assign "z2i" (Sub (V "x2i") (Mul (V "a") (V "y2i")));
    Store (AtInc "Out" "index_z") (V "z2i")])].

(** [add_g5ProjPlus], generic_blas_vadd3_g5.h 15-149. *)
Definition add_g5ProjPlus : stmt := seq [
  Int "index_x" (IC 0);
  Int "index_y" (IC 0);
  Int "index_z" (IC 0);
  For "counter" (IC 0) (IV "n_4vec") 1 (seq [
    Assign "x0r" (Rd (AtInc "X" "index_x"));
    Assign "y0r" (Rd (AtInc "Y" "index_y"));
    Assign "z0r" (Add (V "x0r") (V "y0r"));
    Store (AtInc "Out" "index_z") (V "z0r");
    Assign "x0i" (Rd (AtInc "X" "index_x"));
    Assign "y0i" (Rd (AtInc "Y" "index_y"));
    Assign "z0i" (Add (V "x0i") (V "y0i"));
    Store (AtInc "Out" "index_z") (V "z0i");
    Assign "x1r" (Rd (AtInc "X" "index_x"));
    Assign "y1r" (Rd (AtInc "Y" "index_y"));
    Assign "z1r" (Add (V "x1r") (V "y1r"));
    Store (AtInc "Out" "index_z") (V "z1r");
    Assign "x1i" (Rd (AtInc "X" "index_x"));
    Assign "y1i" (Rd (AtInc "Y" "index_y"));
    Assign "z1i" (Add (V "x1i") (V "y1i"));
    Store (AtInc "Out" "index_z") (V "z1i");
    Assign "x2r" (Rd (AtInc "X" "index_x"));
    Assign "y2r" (Rd (AtInc "Y" "index_y"));
    Assign "z2r" (Add (V "x2r") (V "y2r"));
    Store (AtInc "Out" "index_z") (V "z2r");
    Assign "x2i" (Rd (AtInc "X" "index_x"));
    Assign "y2i" (Rd (AtInc "Y" "index_y"));
    Assign "z2i" (Add (V "x2i") (V "y2i"));
    Store (AtInc "Out" "index_z") (V "z2i");
    Assign "x0r" (Rd (AtInc "X" "index_x"));
    Assign "y0r" (Rd (AtInc "Y" "index_y"));
    Assign "z0r" (Add (V "x0r") (V "y0r"));
    Store (AtInc "Out" "index_z") (V "z0r");
    Assign "x0i" (Rd (AtInc "X" "index_x"));
    Assign "y0i" (Rd (AtInc "Y" "index_y"));
    Assign "z0i" (Add (V "x0i") (V "y0i"));
    Store (AtInc "Out" "index_z") (V "z0i");
    Assign "x1r" (Rd (AtInc "X" "index_x"));
    Assign "y1r" (Rd (AtInc "Y" "index_y"));
    Assign "z1r" (Add (V "x1r") (V "y1r"));
    Store (AtInc "Out" "index_z") (V "z1r");
    Assign "x1i" (Rd (AtInc "X" "index_x"));
    Assign "y1i" (Rd (AtInc "Y" "index_y"));
    Assign "z1i" (Add (V "x1i") (V "y1i"));
    Store (AtInc "Out" "index_z") (V "z1i");
    Assign "x2r" (Rd (AtInc "X" "index_x"));
    Assign "y2r" (Rd (AtInc "Y" "index_y"));
    Assign "z2r" (Add (V "x2r") (V "y2r"));
    Store (AtInc "Out" "index_z") (V "z2r");
    Assign "x2i" (Rd (AtInc "X" "index_x"));
    Assign "y2i" (Rd (AtInc "Y" "index_y"));
    Assign "z2i" (Add (V "x2i") (V "y2i"));
    Store (AtInc "Out" "index_z") (V "z2i");
    Int "index_y" (IAdd (IV "index_y") (IC 12));
    Assign "x0r" (Rd (AtInc "X" "index_x"));
    Assign "x0i" (Rd (AtInc "X" "index_x"));
    Assign "x1r" (Rd (AtInc "X" "index_x"));
    Store (AtInc "Out" "index_z") (V "x0r");
    Assign "x1i" (Rd (AtInc "X" "index_x"));
    Store (AtInc "Out" "index_z") (V "x0i");
    Assign "x2r" (Rd (AtInc "X" "index_x"));
    Store (AtInc "Out" "index_z") (V "x1r");
    Assign "x2i" (Rd (AtInc "X" "index_x"));
    Store (AtInc "Out" "index_z") (V "x1i");
    Assign "x0r" (Rd (AtInc "X" "index_x"));
    Store (AtInc "Out" "index_z") (V "x2r");
    Assign "x0i" (Rd (AtInc "X" "index_x"));
    Store (AtInc "Out" "index_z") (V "x2i");
    Assign "x1r" (Rd (AtInc "X" "index_x"));
    Store (AtInc "Out" "index_z") (V "x0r");
    Assign "x1i" (Rd (AtInc "X" "index_x"));
    Store (AtInc "Out" "index_z") (V "x0i");
    Assign "x2r" (Rd (AtInc "X" "index_x"));
    Store (AtInc "Out" "index_z") (V "x1r");
    Assign "x2i" (Rd (AtInc "X" "index_x"));
    Store (AtInc "Out" "index_z") (V "x1i");
    Assign "x0r" (Rd (At "X" (IV "index_x")));
    Store (AtInc "Out" "index_z") (V "x2r");
    Assign "x0i" (Rd (At "X" (IAdd (IV "index_x") (IC 1))));
    Store (AtInc "Out" "index_z") (V "x2i")])].

(** [add_g5ProjMinus], generic_blas_vadd3_g5.h 153-283. *)
Definition add_g5ProjMinus : stmt := seq [
  Int "index_x" (IC 0);
  Int "index_y" (IC 0);
  Int "index_z" (IC 0);
  For "counter" (IC 0) (IV "n_4vec") 1 (seq [
    Int "index_y" (IAdd (IV "index_y") (IC 12));
    Assign "x0r" (Rd (AtInc "X" "index_x"));
    Assign "x0i" (Rd (AtInc "X" "index_x"));
    Assign "x1r" (Rd (AtInc "X" "index_x"));
    Store (AtInc "Out" "index_z") (V "x0r");
    Assign "x1i" (Rd (AtInc "X" "index_x"));
    Store (AtInc "Out" "index_z") (V "x0i");
    Assign "x2r" (Rd (AtInc "X" "index_x"));
    Store (AtInc "Out" "index_z") (V "x1r");
    Assign "x2i" (Rd (AtInc "X" "index_x"));
    Store (AtInc "Out" "index_z") (V "x1i");
    Assign "x0r" (Rd (AtInc "X" "index_x"));
    Store (AtInc "Out" "index_z") (V "x2r");
    Assign "x0i" (Rd (AtInc "X" "index_x"));
    Store (AtInc "Out" "index_z") (V "x2i");
    Assign "x1r" (Rd (AtInc "X" "index_x"));
    Store (AtInc "Out" "index_z") (V "x0r");
    Assign "x1i" (Rd (AtInc "X" "index_x"));
    Store (AtInc "Out" "index_z") (V "x0i");
    Assign "x2r" (Rd (AtInc "X" "index_x"));
    Store (AtInc "Out" "index_z") (V "x1r");
    Assign "x2i" (Rd (AtInc "X" "index_x"));
    Store (AtInc "Out" "index_z") (V "x1i");
    Assign "x0r" (Rd (AtInc "X" "index_x"));
    Store (AtInc "Out" "index_z") (V "x2r");
    Assign "x0i" (Rd (AtInc "X" "index_x"));
    Store (AtInc "Out" "index_z") (V "x2i");
    Assign "y0r" (Rd (AtInc "Y" "index_y"));
    Assign "z0r" (Add (V "x0r") (V "y0r"));
    Store (AtInc "Out" "index_z") (V "z0r");
    Assign "y0i" (Rd (AtInc "Y" "index_y"));
    Assign "z0i" (Add (V "x0i") (V "y0i"));
    Store (AtInc "Out" "index_z") (V "z0i");
    Assign "x1r" (Rd (AtInc "X" "index_x"));
    Assign "y1r" (Rd (AtInc "Y" "index_y"));
    Assign "z1r" (Add (V "x1r") (V "y1r"));
    Store (AtInc "Out" "index_z") (V "z1r");
    Assign "x1i" (Rd (AtInc "X" "index_x"));
    Assign "y1i" (Rd (AtInc "Y" "index_y"));
    Assign "z1i" (Add (V "x1i") (V "y1i"));
    Store (AtInc "Out" "index_z") (V "z1i");
    Assign "x2r" (Rd (AtInc "X" "index_x"));
    Assign "y2r" (Rd (AtInc "Y" "index_y"));
    Assign "z2r" (Add (V "x2r") (V "y2r"));
    Store (AtInc "Out" "index_z") (V "z2r");
    Assign "x2i" (Rd (AtInc "X" "index_x"));
    Assign "y2i" (Rd (AtInc "Y" "index_y"));
    Assign "z2i" (Add (V "x2i") (V "y2i"));
    Store (AtInc "Out" "index_z") (V "z2i");
    Assign "x0r" (Rd (AtInc "X" "index_x"));
    Assign "y0r" (Rd (AtInc "Y" "index_y"));
    Assign "z0r" (Add (V "x0r") (V "y0r"));
    Store (AtInc "Out" "index_z") (V "z0r");
    Assign "x0i" (Rd (AtInc "X" "index_x"));
    Assign "y0i" (Rd (AtInc "Y" "index_y"));
    Assign "z0i" (Add (V "x0i") (V "y0i"));
    Store (AtInc "Out" "index_z") (V "z0i");
    Assign "x1r" (Rd (AtInc "X" "index_x"));
    Assign "y1r" (Rd (AtInc "Y" "index_y"));
    Assign "z1r" (Add (V "x1r") (V "y1r"));
    Store (AtInc "Out" "index_z") (V "z1r");
    Assign "x1i" (Rd (AtInc "X" "index_x"));
    Assign "y1i" (Rd (AtInc "Y" "index_y"));
    Assign "z1i" (Add (V "x1i") (V "y1i"));
    Store (AtInc "Out" "index_z") (V "z1i");
    Assign "x2r" (Rd (AtInc "X" "index_x"));
    Assign "y2r" (Rd (AtInc "Y" "index_y"));
    Assign "z2r" (Add (V "x2r") (V "y2r"));
    Store (AtInc "Out" "index_z") (V "z2r");
    Assign "x2i" (Rd (AtInc "X" "index_x"));
    Assign "y2i" (Rd (AtInc "Y" "index_y"));
    Assign "z2i" (Add (V "x2i") (V "y2i"));
    Store (AtInc "Out" "index_z") (V "z2i")])].

(** [sub_g5ProjPlus], generic_blas_vadd3_g5.h 288-421. *)
Definition sub_g5ProjPlus : stmt := seq [
  Int "index_x" (IC 0);
  Int "index_y" (IC 0);
  Int "index_z" (IC 0);
  For "counter" (IC 0) (IV "n_4vec") 1 (seq [
    Assign "x0r" (Rd (AtInc "X" "index_x"));
    Assign "y0r" (Rd (AtInc "Y" "index_y"));
    Assign "z0r" (Sub (V "x0r") (V "y0r"));
    Store (AtInc "Out" "index_z") (V "z0r");
    Assign "x0i" (Rd (AtInc "X" "index_x"));
    Assign "y0i" (Rd (AtInc "Y" "index_y"));
    Assign "z0i" (Sub (V "x0i") (V "y0i"));
    Store (AtInc "Out" "index_z") (V "z0i");
    Assign "x1r" (Rd (AtInc "X" "index_x"));
    Assign "y1r" (Rd (AtInc "Y" "index_y"));
    Assign "z1r" (Sub (V "x1r") (V "y1r"));
    Store (AtInc "Out" "index_z") (V "z1r");
    Assign "x1i" (Rd (AtInc "X" "index_x"));
    Assign "y1i" (Rd (AtInc "Y" "index_y"));
    Assign "z1i" (Sub (V "x1i") (V "y1i"));
    Store (AtInc "Out" "index_z") (V "z1i");
    Assign "x2r" (Rd (AtInc "X" "index_x"));
    Assign "y2r" (Rd (AtInc "Y" "index_y"));
    Assign "z2r" (Sub (V "x2r") (V "y2r"));
    Store (AtInc "Out" "index_z") (V "z2r");
    Assign "x2i" (Rd (AtInc "X" "index_x"));
    Assign "y2i" (Rd (AtInc "Y" "index_y"));
    Assign "z2i" (Sub (V "x2i") (V "y2i"));
    Store (AtInc "Out" "index_z") (V "z2i");
    Assign "x0r" (Rd (AtInc "X" "index_x"));
    Assign "y0r" (Rd (AtInc "Y" "index_y"));
    Assign "z0r" (Sub (V "x0r") (V "y0r"));
    Store (AtInc "Out" "index_z") (V "z0r");
    Assign "x0i" (Rd (AtInc "X" "index_x"));
    Assign "y0i" (Rd (AtInc "Y" "index_y"));
    Assign "z0i" (Sub (V "x0i") (V "y0i"));
    Store (AtInc "Out" "index_z") (V "z0i");
    Assign "x1r" (Rd (AtInc "X" "index_x"));
    Assign "y1r" (Rd (AtInc "Y" "index_y"));
    Assign "z1r" (Sub (V "x1r") (V "y1r"));
    Store (AtInc "Out" "index_z") (V "z1r");
    Assign "x1i" (Rd (AtInc "X" "index_x"));
    Assign "y1i" (Rd (AtInc "Y" "index_y"));
    Assign "z1i" (Sub (V "x1i") (V "y1i"));
    Store (AtInc "Out" "index_z") (V "z1i");
    Assign "x2r" (Rd (AtInc "X" "index_x"));
    Assign "y2r" (Rd (AtInc "Y" "index_y"));
    Assign "z2r" (Sub (V "x2r") (V "y2r"));
    Store (AtInc "Out" "index_z") (V "z2r");
    Assign "x2i" (Rd (AtInc "X" "index_x"));
    Assign "y2i" (Rd (AtInc "Y" "index_y"));
    Assign "z2i" (Sub (V "x2i") (V "y2i"));
    Store (AtInc "Out" "index_z") (V "z2i");
    Int "index_y" (IAdd (IV "index_y") (IC 12));
    Assign "x0r" (Rd (AtInc "X" "index_x"));
    Assign "x0i" (Rd (AtInc "X" "index_x"));
    Assign "x1r" (Rd (AtInc "X" "index_x"));
    Store (AtInc "Out" "index_z") (V "x0r");
    Assign "x1i" (Rd (AtInc "X" "index_x"));
    Store (AtInc "Out" "index_z") (V "x0i");
    Assign "x2r" (Rd (AtInc "X" "index_x"));
    Store (AtInc "Out" "index_z") (V "x1r");
    Assign "x2i" (Rd (AtInc "X" "index_x"));
    Store (AtInc "Out" "index_z") (V "x1i");
    Assign "x0r" (Rd (AtInc "X" "index_x"));
    Store (AtInc "Out" "index_z") (V "x2r");
    Assign "x0i" (Rd (AtInc "X" "index_x"));
    Store (AtInc "Out" "index_z") (V "x2i");
    Assign "x1r" (Rd (AtInc "X" "index_x"));
    Store (AtInc "Out" "index_z") (V "x0r");
    Assign "x1i" (Rd (AtInc "X" "index_x"));
    Store (AtInc "Out" "index_z") (V "x0i");
    Assign "x2r" (Rd (AtInc "X" "index_x"));
    Store (AtInc "Out" "index_z") (V "x1r");
    Assign "x2i" (Rd (AtInc "X" "index_x"));
    Store (AtInc "Out" "index_z") (V "x1i");
    Assign "x0r" (Rd (At "X" (IV "index_x")));
    Store (AtInc "Out" "index_z") (V "x2r");
    Assign "x0i" (Rd (At "X" (IAdd (IV "index_x") (IC 1))));
    Store (AtInc "Out" "index_z") (V "x2i")])].

(** [sub_g5ProjMinus], generic_blas_vadd3_g5.h 425-556. *)
Definition sub_g5ProjMinus : stmt := seq [
  Int "index_x" (IC 0);
  Int "index_y" (IC 0);
  Int "index_z" (IC 0);
  For "counter" (IC 0) (IV "n_4vec") 1 (seq [
    Int "index_y" (IAdd (IV "index_y") (IC 12));
    Assign "x0r" (Rd (AtInc "X" "index_x"));
    Assign "x0i" (Rd (AtInc "X" "index_x"));
    Assign "x1r" (Rd (AtInc "X" "index_x"));
    Store (AtInc "Out" "index_z") (V "x0r");
    Assign "x1i" (Rd (AtInc "X" "index_x"));
    Store (AtInc "Out" "index_z") (V "x0i");
    Assign "x2r" (Rd (AtInc "X" "index_x"));
    Store (AtInc "Out" "index_z") (V "x1r");
    Assign "x2i" (Rd (AtInc "X" "index_x"));
    Store (AtInc "Out" "index_z") (V "x1i");
    Assign "x0r" (Rd (AtInc "X" "index_x"));
    Store (AtInc "Out" "index_z") (V "x2r");
    Assign "x0i" (Rd (AtInc "X" "index_x"));
    Store (AtInc "Out" "index_z") (V "x2i");
    Assign "x1r" (Rd (AtInc "X" "index_x"));
    Store (AtInc "Out" "index_z") (V "x0r");
    Assign "x1i" (Rd (AtInc "X" "index_x"));
    Store (AtInc "Out" "index_z") (V "x0i");
    Assign "x2r" (Rd (AtInc "X" "index_x"));
    Store (AtInc "Out" "index_z") (V "x1r");
    Assign "x2i" (Rd (AtInc "X" "index_x"));
    Store (AtInc "Out" "index_z") (V "x1i");
    Assign "x0r" (Rd (AtInc "X" "index_x"));
    Store (AtInc "Out" "index_z") (V "x2r");
    Assign "x0i" (Rd (AtInc "X" "index_x"));
    Store (AtInc "Out" "index_z") (V "x2i");
    Assign "y0r" (Rd (AtInc "Y" "index_y"));
    Assign "z0r" (Sub (V "x0r") (V "y0r"));
    Store (AtInc "Out" "index_z") (V "z0r");
    Assign "y0i" (Rd (AtInc "Y" "index_y"));
    Assign "z0i" (Sub (V "x0i") (V "y0i"));
    Store (AtInc "Out" "index_z") (V "z0i");
    Assign "x1r" (Rd (AtInc "X" "index_x"));
    Assign "y1r" (Rd (AtInc "Y" "index_y"));
    Assign "z1r" (Sub (V "x1r") (V "y1r"));
    Store (AtInc "Out" "index_z") (V "z1r");
    Assign "x1i" (Rd (AtInc "X" "index_x"));
    Assign "y1i" (Rd (AtInc "Y" "index_y"));
    Assign "z1i" (Sub (V "x1i") (V "y1i"));
    Store (AtInc "Out" "index_z") (V "z1i");
    Assign "x2r" (Rd (AtInc "X" "index_x"));
    Assign "y2r" (Rd (AtInc "Y" "index_y"));
    Assign "z2r" (Sub (V "x2r") (V "y2r"));
    Store (AtInc "Out" "index_z") (V "z2r");
    Assign "x2i" (Rd (AtInc "X" "index_x"));
    Assign "y2i" (Rd (AtInc "Y" "index_y"));
    Assign "z2i" (Sub (V "x2i") (V "y2i"));
    Store (AtInc "Out" "index_z") (V "z2i");
    Assign "x0r" (Rd (AtInc "X" "index_x"));
    Assign "y0r" (Rd (AtInc "Y" "index_y"));
    Assign "z0r" (Sub (V "x0r") (V "y0r"));
    Store (AtInc "Out" "index_z") (V "z0r");
    Assign "x0i" (Rd (AtInc "X" "index_x"));
    Assign "y0i" (Rd (AtInc "Y" "index_y"));
    Assign "z0i" (Sub (V "x0i") (V "y0i"));
    Store (AtInc "Out" "index_z") (V "z0i");
    Assign "x1r" (Rd (AtInc "X" "index_x"));
    Assign "y1r" (Rd (AtInc "Y" "index_y"));
    Assign "z1r" (Sub (V "x1r") (V "y1r"));
    Store (AtInc "Out" "index_z") (V "z1r");
    Assign "x1i" (Rd (AtInc "X" "index_x"));
    Assign "y1i" (Rd (AtInc "Y" "index_y"));
    Assign "z1i" (Sub (V "x1i") (V "y1i"));
    Store (AtInc "Out" "index_z") (V "z1i");
    Assign "x2r" (Rd (AtInc "X" "index_x"));
    Assign "y2r" (Rd (AtInc "Y" "index_y"));
    Assign "z2r" (Sub (V "x2r") (V "y2r"));
    Store (AtInc "Out" "index_z") (V "z2r");
    Assign "x2i" (Rd (AtInc "X" "index_x"));
    Assign "y2i" (Rd (AtInc "Y" "index_y"));
    Assign "z2i" (Sub (V "x2i") (V "y2i"));
    Store (AtInc "Out" "index_z") (V "z2i")])].

(** [scal_g5ProjPlus], generic_blas_vscal_g5.h 15-111. *)
Definition scal_g5ProjPlus : stmt := seq [
  Assign "a" (Rd (At "scalep" (IC 0)));
  Int "index_x" (IC 0);
  Int "index_z" (IC 0);
  For "counter" (IC 0) (IV "n_4vec") 1 (seq [
    Assign "x0r" (Rd (AtInc "In" "index_x"));
    Assign "z0r" (Mul (V "a") (V "x0r"));
    Store (AtInc "Out" "index_z") (V "z0r");
    Assign "x0i" (Rd (AtInc "In" "index_x"));
    Assign "z0i" (Mul (V "a") (V "x0i"));
    Store (AtInc "Out" "index_z") (V "z0i");
    Assign "x1r" (Rd (AtInc "In" "index_x"));
    Assign "z1r" (Mul (V "a") (V "x1r"));
    Store (AtInc "Out" "index_z") (V "z1r");
    Assign "x1i" (Rd (AtInc "In" "index_x"));
    Assign "z1i" (Mul (V "a") (V "x1i"));
    Store (AtInc "Out" "index_z") (V "z1i");
    Assign "x2r" (Rd (AtInc "In" "index_x"));
    Assign "z2r" (Mul (V "a") (V "x2r"));
    Store (AtInc "Out" "index_z") (V "z2r");
    Assign "x2i" (Rd (AtInc "In" "index_x"));
    Assign "z2i" (Mul (V "a") (V "x2i"));
    Store (AtInc "Out" "index_z") (V "z2i");
    Assign "x0r" (Rd (AtInc "In" "index_x"));
    Assign "z0r" (Mul (V "a") (V "x0r"));
    Store (AtInc "Out" "index_z") (V "z0r");
    Assign "x0i" (Rd (AtInc "In" "index_x"));
    Assign "z0i" (Mul (V "a") (V "x0i"));
    Store (AtInc "Out" "index_z") (V "z0i");
    Assign "x1r" (Rd (AtInc "In" "index_x"));
    Assign "z1r" (Mul (V "a") (V "x1r"));
    Store (AtInc "Out" "index_z") (V "z1r");
    Assign "x1i" (Rd (AtInc "In" "index_x"));
    Assign "z1i" (Mul (V "a") (V "x1i"));
    Store (AtInc "Out" "index_z") (V "z1i");
    Assign "x2r" (Rd (AtInc "In" "index_x"));
    Assign "z2r" (Mul (V "a") (V "x2r"));
    Store (AtInc "Out" "index_z") (V "z2r");
    Assign "x2i" (Rd (AtInc "In" "index_x"));
    Assign "z2i" (Mul (V "a") (V "x2i"));
    Store (AtInc "Out" "index_z") (V "z2i");
    Int "index_x" (IAdd (IV "index_x") (IC 12));
    Store (AtInc "Out" "index_z") Zero;
    Store (AtInc "Out" "index_z") Zero;
    Store (AtInc "Out" "index_z") Zero;
    Store (AtInc "Out" "index_z") Zero;
    Store (AtInc "Out" "index_z") Zero;
    Store (AtInc "Out" "index_z") Zero;
    Store (AtInc "Out" "index_z") Zero;
    Store (AtInc "Out" "index_z") Zero;
    Store (AtInc "Out" "index_z") Zero;
    Store (AtInc "Out" "index_z") Zero;
    Store (AtInc "Out" "index_z") Zero;
    Store (AtInc "Out" "index_z") Zero])].

(** [scal_g5ProjMinus], generic_blas_vscal_g5.h 115-215. *)
Definition scal_g5ProjMinus : stmt := seq [
  Assign "a" (Rd (At "scalep" (IC 0)));
  Int "index_x" (IC 0);
  Int "index_z" (IC 0);
  For "counter" (IC 0) (IV "n_4vec") 1 (seq [
    Int "index_x" (IAdd (IV "index_x") (IC 12));
    Store (AtInc "Out" "index_z") Zero;
    Store (AtInc "Out" "index_z") Zero;
    Store (AtInc "Out" "index_z") Zero;
    Store (AtInc "Out" "index_z") Zero;
    Store (AtInc "Out" "index_z") Zero;
    Store (AtInc "Out" "index_z") Zero;
    Store (AtInc "Out" "index_z") Zero;
    Store (AtInc "Out" "index_z") Zero;
    Store (AtInc "Out" "index_z") Zero;
    Store (AtInc "Out" "index_z") Zero;
    Store (AtInc "Out" "index_z") Zero;
    Store (AtInc "Out" "index_z") Zero;
    Assign "x0r" (Rd (AtInc "In" "index_x"));
    Assign "z0r" (Mul (V "a") (V "x0r"));
    Store (AtInc "Out" "index_z") (V "z0r");
    Assign "x0i" (Rd (AtInc "In" "index_x"));
    Assign "z0i" (Mul (V "a") (V "x0i"));
    Store (AtInc "Out" "index_z") (V "z0i");
    Assign "x1r" (Rd (AtInc "In" "index_x"));
    Assign "z1r" (Mul (V "a") (V "x1r"));
    Store (AtInc "Out" "index_z") (V "z1r");
    Assign "x1i" (Rd (AtInc "In" "index_x"));
    Assign "z1i" (Mul (V "a") (V "x1i"));
    Store (AtInc "Out" "index_z") (V "z1i");
    Assign "x2r" (Rd (AtInc "In" "index_x"));
    Assign "z2r" (Mul (V "a") (V "x2r"));
    Store (AtInc "Out" "index_z") (V "z2r");
    Assign "x2i" (Rd (AtInc "In" "index_x"));
    Assign "z2i" (Mul (V "a") (V "x2i"));
    Store (AtInc "Out" "index_z") (V "z2i");
    Assign "x0r" (Rd (AtInc "In" "index_x"));
    Assign "z0r" (Mul (V "a") (V "x0r"));
    Store (AtInc "Out" "index_z") (V "z0r");
    Assign "x0i" (Rd (AtInc "In" "index_x"));
    Assign "z0i" (Mul (V "a") (V "x0i"));
    Store (AtInc "Out" "index_z") (V "z0i");
    Assign "x1r" (Rd (AtInc "In" "index_x"));
    Assign "z1r" (Mul (V "a") (V "x1r"));
    Store (AtInc "Out" "index_z") (V "z1r");
    Assign "x1i" (Rd (AtInc "In" "index_x"));
    Assign "z1i" (Mul (V "a") (V "x1i"));
    Store (AtInc "Out" "index_z") (V "z1i");
    Assign "x2r" (Rd (AtInc "In" "index_x"));
    Assign "z2r" (Mul (V "a") (V "x2r"));
    Store (AtInc "Out" "index_z") (V "z2r");
    Assign "x2i" (Rd (AtInc "In" "index_x"));
    Assign "z2i" (Mul (V "a") (V "x2i"));
    Store (AtInc "Out" "index_z") (V "z2i")])].

(** [axpbyz_g5ProjPlus], generic_blas_vaxpby3_g5.h 14-184. *)
Definition axpbyz_g5ProjPlus : stmt := seq [
  Assign "a" (Rd (At "scalep" (IC 0)));
  Assign "b" (Rd (At "scalep2" (IC 0)));
  Int "index_x" (IC 0);
  Int "index_y" (IC 0);
  Int "index_z" (IC 0);
  For "counter" (IC 0) (IV "n_4vec") 1 (seq [
    Assign "x0r" (Rd (AtInc "InScale" "index_x"));
    Assign "y0r" (Rd (AtInc "Add" "index_y"));
    Assign "z0r" (Mul (V "a") (V "x0r"));
    Assign "z0r" (Add (V "z0r") (Mul (V "b") (V "y0r")));
    Store (AtInc "Out" "index_z") (V "z0r");
    Assign "x0i" (Rd (AtInc "InScale" "index_x"));
    Assign "y0i" (Rd (AtInc "Add" "index_y"));
    Assign "z0i" (Mul (V "a") (V "x0i"));
    Assign "z0i" (Add (V "z0i") (Mul (V "b") (V "y0i")));
    Store (AtInc "Out" "index_z") (V "z0i");
    Assign "x1r" (Rd (AtInc "InScale" "index_x"));
    Assign "y1r" (Rd (AtInc "Add" "index_y"));
    Assign "z1r" (Mul (V "a") (V "x1r"));
    Assign "z1r" (Add (V "z1r") (Mul (V "b") (V "y1r")));
    Store (AtInc "Out" "index_z") (V "z1r");
    Assign "x1i" (Rd (AtInc "InScale" "index_x"));
    Assign "y1i" (Rd (AtInc "Add" "index_y"));
    Assign "z1i" (Mul (V "a") (V "x1i"));
    Assign "z1i" (Add (V "z1i") (Mul (V "b") (V "y1i")));
    Store (AtInc "Out" "index_z") (V "z1i");
    Assign "x2r" (Rd (AtInc "InScale" "index_x"));
    Assign "y2r" (Rd (AtInc "Add" "index_y"));
    Assign "z2r" (Mul (V "a") (V "x2r"));
    Assign "z2r" (Add (V "z2r") (Mul (V "b") (V "y2r")));
    Store (AtInc "Out" "index_z") (V "z2r");
    Assign "x2i" (Rd (AtInc "InScale" "index_x"));
    Assign "y2i" (Rd (AtInc "Add" "index_y"));
    Assign "z2i" (Mul (V "a") (V "x2i"));
    Assign "z2i" (Add (V "z2i") (Mul (V "b") (V "y2i")));
    Store (AtInc "Out" "index_z") (V "z2i");
    Assign "x0r" (Rd (AtInc "InScale" "index_x"));
    Assign "y0r" (Rd (AtInc "Add" "index_y"));
    Assign "z0r" (Mul (V "a") (V "x0r"));
    Assign "z0r" (Add (V "z0r") (Mul (V "b") (V "y0r")));
    Store (AtInc "Out" "index_z") (V "z0r");
    Assign "x0i" (Rd (AtInc "InScale" "index_x"));
    Assign "y0i" (Rd (AtInc "Add" "index_y"));
    Assign "z0i" (Mul (V "a") (V "x0i"));
    Assign "z0i" (Add (V "z0i") (Mul (V "b") (V "y0i")));
    Store (AtInc "Out" "index_z") (V "z0i");
    Assign "x1r" (Rd (AtInc "InScale" "index_x"));
    Assign "y1r" (Rd (AtInc "Add" "index_y"));
    Assign "z1r" (Mul (V "a") (V "x1r"));
    Assign "z1r" (Add (V "z1r") (Mul (V "b") (V "y1r")));
    Store (AtInc "Out" "index_z") (V "z1r");
    Assign "x1i" (Rd (AtInc "InScale" "index_x"));
    Assign "y1i" (Rd (AtInc "Add" "index_y"));
    Assign "z1i" (Mul (V "a") (V "x1i"));
    Assign "z1i" (Add (V "z1i") (Mul (V "b") (V "y1i")));
    Store (AtInc "Out" "index_z") (V "z1i");
    Assign "x2r" (Rd (AtInc "InScale" "index_x"));
    Assign "y2r" (Rd (AtInc "Add" "index_y"));
    Assign "z2r" (Mul (V "a") (V "x2r"));
    Assign "z2r" (Add (V "z2r") (Mul (V "b") (V "y2r")));
    Store (AtInc "Out" "index_z") (V "z2r");
    Assign "x2i" (Rd (AtInc "InScale" "index_x"));
    Assign "y2i" (Rd (AtInc "Add" "index_y"));
    Assign "z2i" (Mul (V "a") (V "x2i"));
    Assign "z2i" (Add (V "z2i") (Mul (V "b") (V "y2i")));
    Store (AtInc "Out" "index_z") (V "z2i");
    Int "index_y" (IAdd (IV "index_y") (IC 12));
    Assign "x0r" (Rd (AtInc "InScale" "index_x"));
    Assign "z0r" (Mul (V "a") (V "x0r"));
    Store (AtInc "Out" "index_z") (V "z0r");
    Assign "x0i" (Rd (AtInc "InScale" "index_x"));
    Assign "z0i" (Mul (V "a") (V "x0i"));
    Store (AtInc "Out" "index_z") (V "z0i");
    Assign "x1r" (Rd (AtInc "InScale" "index_x"));
    Assign "z1r" (Mul (V "a") (V "x1r"));
    Store (AtInc "Out" "index_z") (V "z1r");
    Assign "x1i" (Rd (AtInc "InScale" "index_x"));
    Assign "z1i" (Mul (V "a") (V "x1i"));
    Store (AtInc "Out" "index_z") (V "z1i");
    Assign "x2r" (Rd (AtInc "InScale" "index_x"));
    Assign "z2r" (Mul (V "a") (V "x2r"));
    Store (AtInc "Out" "index_z") (V "z2r");
    Assign "x2i" (Rd (AtInc "InScale" "index_x"));
    Assign "z2i" (Mul (V "a") (V "x2i"));
    Store (AtInc "Out" "index_z") (V "z2i");
    Assign "x0r" (Rd (AtInc "InScale" "index_x"));
    Assign "y0r" (Rd (At "Add" (IV "index_y")));
    Assign "z0r" (Mul (V "a") (V "x0r"));
    Store (AtInc "Out" "index_z") (V "z0r");
    Assign "x0i" (Rd (AtInc "InScale" "index_x"));
    Assign "z0i" (Mul (V "a") (V "x0i"));
    Store (AtInc "Out" "index_z") (V "z0i");
    Assign "x1r" (Rd (AtInc "InScale" "index_x"));
    Assign "z1r" (Mul (V "a") (V "x1r"));
    Store (AtInc "Out" "index_z") (V "z1r");
    Assign "x1i" (Rd (AtInc "InScale" "index_x"));
    Assign "z1i" (Mul (V "a") (V "x1i"));
    Store (AtInc "Out" "index_z") (V "z1i");
    Assign "x2r" (Rd (AtInc "InScale" "index_x"));
    Assign "z2r" (Mul (V "a") (V "x2r"));
    Store (AtInc "Out" "index_z") (V "z2r");
    Assign "x2i" (Rd (AtInc "InScale" "index_x"));
    Assign "z2i" (Mul (V "a") (V "x2i"));
    Store (AtInc "Out" "index_z") (V "z2i")])].

(** [axpbyz_g5ProjMinus], generic_blas_vaxpby3_g5.h 187-345. *)
Definition axpbyz_g5ProjMinus : stmt := seq [
  Assign "a" (Rd (At "scalep" (IC 0)));
  Assign "b" (Rd (At "scalep2" (IC 0)));
  Int "index_x" (IC 0);
  Int "index_y" (IC 0);
  Int "index_z" (IC 0);
  For "counter" (IC 0) (IV "n_4vec") 1 (seq [
    Int "index_y" (IAdd (IV "index_y") (IC 12));
    Assign "x0r" (Rd (AtInc "InScale" "index_x"));
    Store (AtInc "Out" "index_z") (Mul (V "a") (V "x0r"));
    Assign "x0i" (Rd (AtInc "InScale" "index_x"));
    Store (AtInc "Out" "index_z") (Mul (V "a") (V "x0i"));
    Assign "x1r" (Rd (AtInc "InScale" "index_x"));
    Store (AtInc "Out" "index_z") (Mul (V "a") (V "x1r"));
    Assign "x1i" (Rd (AtInc "InScale" "index_x"));
    Store (AtInc "Out" "index_z") (Mul (V "a") (V "x1i"));
    Assign "x2r" (Rd (AtInc "InScale" "index_x"));
    Store (AtInc "Out" "index_z") (Mul (V "a") (V "x2r"));
    Assign "x2i" (Rd (AtInc "InScale" "index_x"));
    Store (AtInc "Out" "index_z") (Mul (V "a") (V "x2i"));
    Assign "x0r" (Rd (AtInc "InScale" "index_x"));
    Store (AtInc "Out" "index_z") (Mul (V "a") (V "x0r"));
    Assign "x0i" (Rd (AtInc "InScale" "index_x"));
    Store (AtInc "Out" "index_z") (Mul (V "a") (V "x0i"));
    Assign "x1r" (Rd (AtInc "InScale" "index_x"));
    Store (AtInc "Out" "index_z") (Mul (V "a") (V "x1r"));
    Assign "x1i" (Rd (AtInc "InScale" "index_x"));
    Store (AtInc "Out" "index_z") (Mul (V "a") (V "x1i"));
    Assign "x2r" (Rd (AtInc "InScale" "index_x"));
    Store (AtInc "Out" "index_z") (Mul (V "a") (V "x2r"));
    Assign "x2i" (Rd (AtInc "InScale" "index_x"));
    Store (AtInc "Out" "index_z") (Mul (V "a") (V "x2i"));
    Assign "x0r" (Rd (AtInc "InScale" "index_x"));
    Assign "y0r" (Rd (AtInc "Add" "index_y"));
    Assign "z0r" (Mul (V "a") (V "x0r"));
    Assign "z0r" (Add (V "z0r") (Mul (V "b") (V "y0r")));
    Store (AtInc "Out" "index_z") (V "z0r");
    Assign "x0i" (Rd (AtInc "InScale" "index_x"));
    Assign "y0i" (Rd (AtInc "Add" "index_y"));
    Assign "z0i" (Mul (V "a") (V "x0i"));
    Assign "z0i" (Add (V "z0i") (Mul (V "b") (V "y0i")));
    Store (AtInc "Out" "index_z") (V "z0i");
    Assign "x1r" (Rd (AtInc "InScale" "index_x"));
    Assign "y1r" (Rd (AtInc "Add" "index_y"));
    Assign "z1r" (Mul (V "a") (V "x1r"));
    Assign "z1r" (Add (V "z1r") (Mul (V "b") (V "y1r")));
    Store (AtInc "Out" "index_z") (V "z1r");
    Assign "x1i" (Rd (AtInc "InScale" "index_x"));
    Assign "y1i" (Rd (AtInc "Add" "index_y"));
    Assign "z1i" (Mul (V "a") (V "x1i"));
    Assign "z1i" (Add (V "z1i") (Mul (V "b") (V "y1i")));
    Store (AtInc "Out" "index_z") (V "z1i");
    Assign "x2r" (Rd (AtInc "InScale" "index_x"));
    Assign "y2r" (Rd (AtInc "Add" "index_y"));
    Assign "z2r" (Mul (V "a") (V "x2r"));
    Assign "z2r" (Add (V "z2r") (Mul (V "b") (V "y2r")));
    Store (AtInc "Out" "index_z") (V "z2r");
    Assign "x2i" (Rd (AtInc "InScale" "index_x"));
    Assign "y2i" (Rd (AtInc "Add" "index_y"));
    Assign "z2i" (Mul (V "a") (V "x2i"));
    Assign "z2i" (Add (V "z2i") (Mul (V "b") (V "y2i")));
    Store (AtInc "Out" "index_z") (V "z2i");
    Assign "x0r" (Rd (AtInc "InScale" "index_x"));
    Assign "y0r" (Rd (AtInc "Add" "index_y"));
    Assign "z0r" (Mul (V "a") (V "x0r"));
    Assign "z0r" (Add (V "z0r") (Mul (V "b") (V "y0r")));
    Store (AtInc "Out" "index_z") (V "z0r");
    Assign "x0i" (Rd (AtInc "InScale" "index_x"));
    Assign "y0i" (Rd (AtInc "Add" "index_y"));
    Assign "z0i" (Mul (V "a") (V "x0i"));
    Assign "z0i" (Add (V "z0i") (Mul (V "b") (V "y0i")));
    Store (AtInc "Out" "index_z") (V "z0i");
    Assign "x1r" (Rd (AtInc "InScale" "index_x"));
    Assign "y1r" (Rd (AtInc "Add" "index_y"));
    Assign "z1r" (Mul (V "a") (V "x1r"));
    Assign "z1r" (Add (V "z1r") (Mul (V "b") (V "y1r")));
    Store (AtInc "Out" "index_z") (V "z1r");
    Assign "x1i" (Rd (AtInc "InScale" "index_x"));
    Assign "y1i" (Rd (AtInc "Add" "index_y"));
    Assign "z1i" (Mul (V "a") (V "x1i"));
    Assign "z1i" (Add (V "z1i") (Mul (V "b") (V "y1i")));
    Store (AtInc "Out" "index_z") (V "z1i");
    Assign "x2r" (Rd (AtInc "InScale" "index_x"));
    Assign "y2r" (Rd (AtInc "Add" "index_y"));
    Assign "z2r" (Mul (V "a") (V "x2r"));
    Assign "z2r" (Add (V "z2r") (Mul (V "b") (V "y2r")));
    Store (AtInc "Out" "index_z") (V "z2r");
    Assign "x2i" (Rd (AtInc "InScale" "index_x"));
    Assign "y2i" (Rd (AtInc "Add" "index_y"));
    Assign "z2i" (Mul (V "a") (V "x2i"));
    Assign "z2i" (Add (V "z2i") (Mul (V "b") (V "y2i")));
    Store (AtInc "Out" "index_z") (V "z2i")])].

(** [axmbyz_g5ProjPlus], generic_blas_vaxpby3_g5.h 350-520. *)
Definition axmbyz_g5ProjPlus : stmt := seq [
  Assign "a" (Rd (At "scalep" (IC 0)));
  Assign "b" (Rd (At "scalep2" (IC 0)));
  Int "index_x" (IC 0);
  Int "index_y" (IC 0);
  Int "index_z" (IC 0);
  For "counter" (IC 0) (IV "n_4vec") 1 (seq [
    Assign "x0r" (Rd (AtInc "InScale" "index_x"));
    Assign "y0r" (Rd (AtInc "Add" "index_y"));
    Assign "z0r" (Mul (V "a") (V "x0r"));
    Assign "z0r" (Sub (V "z0r") (Mul (V "b") (V "y0r")));
    Store (AtInc "Out" "index_z") (V "z0r");
    Assign "x0i" (Rd (AtInc "InScale" "index_x"));
    Assign "y0i" (Rd (AtInc "Add" "index_y"));
    Assign "z0i" (Mul (V "a") (V "x0i"));
    Assign "z0i" (Sub (V "z0i") (Mul (V "b") (V "y0i")));
    Store (AtInc "Out" "index_z") (V "z0i");
    Assign "x1r" (Rd (AtInc "InScale" "index_x"));
    Assign "y1r" (Rd (AtInc "Add" "index_y"));
    Assign "z1r" (Mul (V "a") (V "x1r"));
    Assign "z1r" (Sub (V "z1r") (Mul (V "b") (V "y1r")));
    Store (AtInc "Out" "index_z") (V "z1r");
    Assign "x1i" (Rd (AtInc "InScale" "index_x"));
    Assign "y1i" (Rd (AtInc "Add" "index_y"));
    Assign "z1i" (Mul (V "a") (V "x1i"));
    Assign "z1i" (Sub (V "z1i") (Mul (V "b") (V "y1i")));
    Store (AtInc "Out" "index_z") (V "z1i");
    Assign "x2r" (Rd (AtInc "InScale" "index_x"));
    Assign "y2r" (Rd (AtInc "Add" "index_y"));
    Assign "z2r" (Mul (V "a") (V "x2r"));
    Assign "z2r" (Sub (V "z2r") (Mul (V "b") (V "y2r")));
    Store (AtInc "Out" "index_z") (V "z2r");
    Assign "x2i" (Rd (AtInc "InScale" "index_x"));
    Assign "y2i" (Rd (AtInc "Add" "index_y"));
    Assign "z2i" (Mul (V "a") (V "x2i"));
    Assign "z2i" (Sub (V "z2i") (Mul (V "b") (V "y2i")));
    Store (AtInc "Out" "index_z") (V "z2i");
    Assign "x0r" (Rd (AtInc "InScale" "index_x"));
    Assign "y0r" (Rd (AtInc "Add" "index_y"));
    Assign "z0r" (Mul (V "a") (V "x0r"));
    Assign "z0r" (Sub (V "z0r") (Mul (V "b") (V "y0r")));
    Store (AtInc "Out" "index_z") (V "z0r");
    Assign "x0i" (Rd (AtInc "InScale" "index_x"));
    Assign "y0i" (Rd (AtInc "Add" "index_y"));
    Assign "z0i" (Mul (V "a") (V "x0i"));
    Assign "z0i" (Sub (V "z0i") (Mul (V "b") (V "y0i")));
    Store (AtInc "Out" "index_z") (V "z0i");
    Assign "x1r" (Rd (AtInc "InScale" "index_x"));
    Assign "y1r" (Rd (AtInc "Add" "index_y"));
    Assign "z1r" (Mul (V "a") (V "x1r"));
    Assign "z1r" (Sub (V "z1r") (Mul (V "b") (V "y1r")));
    Store (AtInc "Out" "index_z") (V "z1r");
    Assign "x1i" (Rd (AtInc "InScale" "index_x"));
    Assign "y1i" (Rd (AtInc "Add" "index_y"));
    Assign "z1i" (Mul (V "a") (V "x1i"));
    Assign "z1i" (Sub (V "z1i") (Mul (V "b") (V "y1i")));
    Store (AtInc "Out" "index_z") (V "z1i");
    Assign "x2r" (Rd (AtInc "InScale" "index_x"));
    Assign "y2r" (Rd (AtInc "Add" "index_y"));
    Assign "z2r" (Mul (V "a") (V "x2r"));
    Assign "z2r" (Sub (V "z2r") (Mul (V "b") (V "y2r")));
    Store (AtInc "Out" "index_z") (V "z2r");
    Assign "x2i" (Rd (AtInc "InScale" "index_x"));
    Assign "y2i" (Rd (AtInc "Add" "index_y"));
    Assign "z2i" (Mul (V "a") (V "x2i"));
    Assign "z2i" (Sub (V "z2i") (Mul (V "b") (V "y2i")));
    Store (AtInc "Out" "index_z") (V "z2i");
    Int "index_y" (IAdd (IV "index_y") (IC 12));
    Assign "x0r" (Rd (AtInc "InScale" "index_x"));
    Assign "z0r" (Mul (V "a") (V "x0r"));
    Store (AtInc "Out" "index_z") (V "z0r");
    Assign "x0i" (Rd (AtInc "InScale" "index_x"));
    Assign "z0i" (Mul (V "a") (V "x0i"));
    Store (AtInc "Out" "index_z") (V "z0i");
    Assign "x1r" (Rd (AtInc "InScale" "index_x"));
    Assign "z1r" (Mul (V "a") (V "x1r"));
    Store (AtInc "Out" "index_z") (V "z1r");
    Assign "x1i" (Rd (AtInc "InScale" "index_x"));
    Assign "z1i" (Mul (V "a") (V "x1i"));
    Store (AtInc "Out" "index_z") (V "z1i");
    Assign "x2r" (Rd (AtInc "InScale" "index_x"));
    Assign "z2r" (Mul (V "a") (V "x2r"));
    Store (AtInc "Out" "index_z") (V "z2r");
    Assign "x2i" (Rd (AtInc "InScale" "index_x"));
    Assign "z2i" (Mul (V "a") (V "x2i"));
    Store (AtInc "Out" "index_z") (V "z2i");
    Assign "x0r" (Rd (AtInc "InScale" "index_x"));
    Assign "y0r" (Rd (At "Add" (IV "index_y")));
    Assign "z0r" (Mul (V "a") (V "x0r"));
    Store (AtInc "Out" "index_z") (V "z0r");
    Assign "x0i" (Rd (AtInc "InScale" "index_x"));
    Assign "z0i" (Mul (V "a") (V "x0i"));
    Store (AtInc "Out" "index_z") (V "z0i");
    Assign "x1r" (Rd (AtInc "InScale" "index_x"));
    Assign "z1r" (Mul (V "a") (V "x1r"));
    Store (AtInc "Out" "index_z") (V "z1r");
    Assign "x1i" (Rd (AtInc "InScale" "index_x"));
    Assign "z1i" (Mul (V "a") (V "x1i"));
    Store (AtInc "Out" "index_z") (V "z1i");
    Assign "x2r" (Rd (AtInc "InScale" "index_x"));
    Assign "z2r" (Mul (V "a") (V "x2r"));
    Store (AtInc "Out" "index_z") (V "z2r");
    Assign "x2i" (Rd (AtInc "InScale" "index_x"));
    Assign "z2i" (Mul (V "a") (V "x2i"));
    Store (AtInc "Out" "index_z") (V "z2i")])].

(** [axmbyz_g5ProjMinus], generic_blas_vaxpby3_g5.h 524-682. *)
Definition axmbyz_g5ProjMinus : stmt := seq [
  Assign "a" (Rd (At "scalep" (IC 0)));
  Assign "b" (Rd (At "scalep2" (IC 0)));
  Int "index_x" (IC 0);
  Int "index_y" (IC 0);
  Int "index_z" (IC 0);
  For "counter" (IC 0) (IV "n_4vec") 1 (seq [
    Int "index_y" (IAdd (IV "index_y") (IC 12));
    Assign "x0r" (Rd (AtInc "InScale" "index_x"));
    Store (AtInc "Out" "index_z") (Mul (V "a") (V "x0r"));
    Assign "x0i" (Rd (AtInc "InScale" "index_x"));
    Store (AtInc "Out" "index_z") (Mul (V "a") (V "x0i"));
    Assign "x1r" (Rd (AtInc "InScale" "index_x"));
    Store (AtInc "Out" "index_z") (Mul (V "a") (V "x1r"));
    Assign "x1i" (Rd (AtInc "InScale" "index_x"));
    Store (AtInc "Out" "index_z") (Mul (V "a") (V "x1i"));
    Assign "x2r" (Rd (AtInc "InScale" "index_x"));
    Store (AtInc "Out" "index_z") (Mul (V "a") (V "x2r"));
    Assign "x2i" (Rd (AtInc "InScale" "index_x"));
    Store (AtInc "Out" "index_z") (Mul (V "a") (V "x2i"));
    Assign "x0r" (Rd (AtInc "InScale" "index_x"));
    Store (AtInc "Out" "index_z") (Mul (V "a") (V "x0r"));
    Assign "x0i" (Rd (AtInc "InScale" "index_x"));
    Store (AtInc "Out" "index_z") (Mul (V "a") (V "x0i"));
    Assign "x1r" (Rd (AtInc "InScale" "index_x"));
    Store (AtInc "Out" "index_z") (Mul (V "a") (V "x1r"));
    Assign "x1i" (Rd (AtInc "InScale" "index_x"));
    Store (AtInc "Out" "index_z") (Mul (V "a") (V "x1i"));
    Assign "x2r" (Rd (AtInc "InScale" "index_x"));
    Store (AtInc "Out" "index_z") (Mul (V "a") (V "x2r"));
    Assign "x2i" (Rd (AtInc "InScale" "index_x"));
    Store (AtInc "Out" "index_z") (Mul (V "a") (V "x2i"));
    Assign "x0r" (Rd (AtInc "InScale" "index_x"));
    Assign "y0r" (Rd (AtInc "Add" "index_y"));
    Assign "z0r" (Mul (V "a") (V "x0r"));
    Assign "z0r" (Sub (V "z0r") (Mul (V "b") (V "y0r")));
    Store (AtInc "Out" "index_z") (V "z0r");
    Assign "x0i" (Rd (AtInc "InScale" "index_x"));
    Assign "y0i" (Rd (AtInc "Add" "index_y"));
    Assign "z0i" (Mul (V "a") (V "x0i"));
    Assign "z0i" (Sub (V "z0i") (Mul (V "b") (V "y0i")));
    Store (AtInc "Out" "index_z") (V "z0i");
    Assign "x1r" (Rd (AtInc "InScale" "index_x"));
    Assign "y1r" (Rd (AtInc "Add" "index_y"));
    Assign "z1r" (Mul (V "a") (V "x1r"));
    Assign "z1r" (Sub (V "z1r") (Mul (V "b") (V "y1r")));
    Store (AtInc "Out" "index_z") (V "z1r");
    Assign "x1i" (Rd (AtInc "InScale" "index_x"));
    Assign "y1i" (Rd (AtInc "Add" "index_y"));
    Assign "z1i" (Mul (V "a") (V "x1i"));
    Assign "z1i" (Sub (V "z1i") (Mul (V "b") (V "y1i")));
    Store (AtInc "Out" "index_z") (V "z1i");
    Assign "x2r" (Rd (AtInc "InScale" "index_x"));
    Assign "y2r" (Rd (AtInc "Add" "index_y"));
    Assign "z2r" (Mul (V "a") (V "x2r"));
    Assign "z2r" (Sub (V "z2r") (Mul (V "b") (V "y2r")));
    Store (AtInc "Out" "index_z") (V "z2r");
    Assign "x2i" (Rd (AtInc "InScale" "index_x"));
    Assign "y2i" (Rd (AtInc "Add" "index_y"));
    Assign "z2i" (Mul (V "a") (V "x2i"));
    Assign "z2i" (Sub (V "z2i") (Mul (V "b") (V "y2i")));
    Store (AtInc "Out" "index_z") (V "z2i");
    Assign "x0r" (Rd (AtInc "InScale" "index_x"));
    Assign "y0r" (Rd (AtInc "Add" "index_y"));
    Assign "z0r" (Mul (V "a") (V "x0r"));
    Assign "z0r" (Sub (V "z0r") (Mul (V "b") (V "y0r")));
    Store (AtInc "Out" "index_z") (V "z0r");
    Assign "x0i" (Rd (AtInc "InScale" "index_x"));
    Assign "y0i" (Rd (AtInc "Add" "index_y"));
    Assign "z0i" (Mul (V "a") (V "x0i"));
    Assign "z0i" (Sub (V "z0i") (Mul (V "b") (V "y0i")));
    Store (AtInc "Out" "index_z") (V "z0i");
    Assign "x1r" (Rd (AtInc "InScale" "index_x"));
    Assign "y1r" (Rd (AtInc "Add" "index_y"));
    Assign "z1r" (Mul (V "a") (V "x1r"));
    Assign "z1r" (Sub (V "z1r") (Mul (V "b") (V "y1r")));
    Store (AtInc "Out" "index_z") (V "z1r");
    Assign "x1i" (Rd (AtInc "InScale" "index_x"));
    Assign "y1i" (Rd (AtInc "Add" "index_y"));
    Assign "z1i" (Mul (V "a") (V "x1i"));
    Assign "z1i" (Sub (V "z1i") (Mul (V "b") (V "y1i")));
    Store (AtInc "Out" "index_z") (V "z1i");
    Assign "x2r" (Rd (AtInc "InScale" "index_x"));
    Assign "y2r" (Rd (AtInc "Add" "index_y"));
    Assign "z2r" (Mul (V "a") (V "x2r"));
    Assign "z2r" (Sub (V "z2r") (Mul (V "b") (V "y2r")));
    Store (AtInc "Out" "index_z") (V "z2r");
    Assign "x2i" (Rd (AtInc "InScale" "index_x"));
    Assign "y2i" (Rd (AtInc "Add" "index_y"));
    Assign "z2i" (Mul (V "a") (V "x2i"));
    Assign "z2i" (Sub (V "z2i") (Mul (V "b") (V "y2i")));
    Store (AtInc "Out" "index_z") (V "z2i")])].

(** [scal_g5], generic_blas_g5.h 8-137. *)
Definition scal_g5 : stmt := seq [
  Assign "a" (Rd (At "scalep" (IC 0)));
  Int "index_x" (IC 0);
  Int "index_z" (IC 0);
  For "counter" (IC 0) (IV "n_4vec") 1 (seq [
    Assign "x0r" (Rd (AtInc "In" "index_x"));
    Assign "z0r" (Mul (V "a") (V "x0r"));
    Store (AtInc "Out" "index_z") (V "z0r");
    Assign "x0i" (Rd (AtInc "In" "index_x"));
    Assign "z0i" (Mul (V "a") (V "x0i"));
    Store (AtInc "Out" "index_z") (V "z0i");
    Assign "x1r" (Rd (AtInc "In" "index_x"));
    Assign "z1r" (Mul (V "a") (V "x1r"));
    Store (AtInc "Out" "index_z") (V "z1r");
    Assign "x1i" (Rd (AtInc "In" "index_x"));
    Assign "z1i" (Mul (V "a") (V "x1i"));
    Store (AtInc "Out" "index_z") (V "z1i");
    Assign "x2r" (Rd (AtInc "In" "index_x"));
    Assign "z2r" (Mul (V "a") (V "x2r"));
    Store (AtInc "Out" "index_z") (V "z2r");
    Assign "x2i" (Rd (AtInc "In" "index_x"));
    Assign "z2i" (Mul (V "a") (V "x2i"));
    Store (AtInc "Out" "index_z") (V "z2i");
    Assign "x0r" (Rd (AtInc "In" "index_x"));
    Assign "z0r" (Mul (V "a") (V "x0r"));
    Store (AtInc "Out" "index_z") (V "z0r");
    Assign "x0i" (Rd (AtInc "In" "index_x"));
    Assign "z0i" (Mul (V "a") (V "x0i"));
    Store (AtInc "Out" "index_z") (V "z0i");
    Assign "x1r" (Rd (AtInc "In" "index_x"));
    Assign "z1r" (Mul (V "a") (V "x1r"));
    Store (AtInc "Out" "index_z") (V "z1r");
    Assign "x1i" (Rd (AtInc "In" "index_x"));
    Assign "z1i" (Mul (V "a") (V "x1i"));
    Store (AtInc "Out" "index_z") (V "z1i");
    Assign "x2r" (Rd (AtInc "In" "index_x"));
    Assign "z2r" (Mul (V "a") (V "x2r"));
    Store (AtInc "Out" "index_z") (V "z2r");
    Assign "x2i" (Rd (AtInc "In" "index_x"));
    Assign "z2i" (Mul (V "a") (V "x2i"));
    Store (AtInc "Out" "index_z") (V "z2i");
    Assign "x0r" (Rd (AtInc "In" "index_x"));
    Assign "z0r" (Mul (V "a") (V "x0r"));
    Store (AtInc "Out" "index_z") (Neg (V "z0r"));
    Assign "x0i" (Rd (AtInc "In" "index_x"));
    Assign "z0i" (Mul (V "a") (V "x0i"));
    Store (AtInc "Out" "index_z") (Neg (V "z0i"));
    Assign "x1r" (Rd (AtInc "In" "index_x"));
    Assign "z1r" (Mul (V "a") (V "x1r"));
    Store (AtInc "Out" "index_z") (Neg (V "z1r"));
    Assign "x1i" (Rd (AtInc "In" "index_x"));
    Assign "z1i" (Mul (V "a") (V "x1i"));
    Store (AtInc "Out" "index_z") (Neg (V "z1i"));
    Assign "x2r" (Rd (AtInc "In" "index_x"));
    Assign "z2r" (Mul (V "a") (V "x2r"));
    Store (AtInc "Out" "index_z") (Neg (V "z2r"));
    Assign "x2i" (Rd (AtInc "In" "index_x"));
    Assign "z2i" (Mul (V "a") (V "x2i"));
    Store (AtInc "Out" "index_z") (Neg (V "z2i"));
    Assign "x0r" (Rd (AtInc "In" "index_x"));
    Assign "z0r" (Mul (V "a") (V "x0r"));
    Store (AtInc "Out" "index_z") (Neg (V "z0r"));
    Assign "x0i" (Rd (AtInc "In" "index_x"));
    Assign "z0i" (Mul (V "a") (V "x0i"));
    Store (AtInc "Out" "index_z") (Neg (V "z0i"));
    Assign "x1r" (Rd (AtInc "In" "index_x"));
    Assign "z1r" (Mul (V "a") (V "x1r"));
    Store (AtInc "Out" "index_z") (Neg (V "z1r"));
    Assign "x1i" (Rd (AtInc "In" "index_x"));
    Assign "z1i" (Mul (V "a") (V "x1i"));
    Store (AtInc "Out" "index_z") (Neg (V "z1i"));
    Assign "x2r" (Rd (AtInc "In" "index_x"));
    Assign "z2r" (Mul (V "a") (V "x2r"));
    Store (AtInc "Out" "index_z") (Neg (V "z2r"));
    Assign "x2i" (Rd (AtInc "In" "index_x"));
    Assign "z2i" (Mul (V "a") (V "x2i"));
    Store (AtInc "Out" "index_z") (Neg (V "z2i"))])].

(** [axpbyz_g5], generic_blas_g5.h 141-331. *)
Definition axpbyz_g5 : stmt := seq [
  Assign "a" (Rd (At "scalep" (IC 0)));
  Assign "b" (Rd (At "scalep2" (IC 0)));
  Int "index_x" (IC 0);
  Int "index_y" (IC 0);
  Int "index_z" (IC 0);
  For "counter" (IC 0) (IV "n_4vec") 1 (seq [
    Assign "x0r" (Rd (AtInc "InScale" "index_x"));
    Assign "y0r" (Rd (AtInc "Add" "index_y"));
    Assign "z0r" (Mul (V "a") (V "x0r"));
    Assign "z0r" (Add (V "z0r") (Mul (V "b") (V "y0r")));
    Store (AtInc "Out" "index_z") (V "z0r");
    Assign "x0i" (Rd (AtInc "InScale" "index_x"));
    Assign "y0i" (Rd (AtInc "Add" "index_y"));
    Assign "z0i" (Mul (V "a") (V "x0i"));
    Assign "z0i" (Add (V "z0i") (Mul (V "b") (V "y0i")));
    Store (AtInc "Out" "index_z") (V "z0i");
    Assign "x1r" (Rd (AtInc "InScale" "index_x"));
    Assign "y1r" (Rd (AtInc "Add" "index_y"));
    Assign "z1r" (Mul (V "a") (V "x1r"));
    Assign "z1r" (Add (V "z1r") (Mul (V "b") (V "y1r")));
    Store (AtInc "Out" "index_z") (V "z1r");
    Assign "x1i" (Rd (AtInc "InScale" "index_x"));
    Assign "y1i" (Rd (AtInc "Add" "index_y"));
    Assign "z1i" (Mul (V "a") (V "x1i"));
    Assign "z1i" (Add (V "z1i") (Mul (V "b") (V "y1i")));
    Store (AtInc "Out" "index_z") (V "z1i");
    Assign "x2r" (Rd (AtInc "InScale" "index_x"));
    Assign "y2r" (Rd (AtInc "Add" "index_y"));
    Assign "z2r" (Mul (V "a") (V "x2r"));
    Assign "z2r" (Add (V "z2r") (Mul (V "b") (V "y2r")));
    Store (AtInc "Out" "index_z") (V "z2r");
    Assign "x2i" (Rd (AtInc "InScale" "index_x"));
    Assign "y2i" (Rd (AtInc "Add" "index_y"));
    Assign "z2i" (Mul (V "a") (V "x2i"));
    Assign "z2i" (Add (V "z2i") (Mul (V "b") (V "y2i")));
    Store (AtInc "Out" "index_z") (V "z2i");
    Assign "x0r" (Rd (AtInc "InScale" "index_x"));
    Assign "y0r" (Rd (AtInc "Add" "index_y"));
    Assign "z0r" (Mul (V "a") (V "x0r"));
    Assign "z0r" (Add (V "z0r") (Mul (V "b") (V "y0r")));
    Store (AtInc "Out" "index_z") (V "z0r");
    Assign "x0i" (Rd (AtInc "InScale" "index_x"));
    Assign "y0i" (Rd (AtInc "Add" "index_y"));
    Assign "z0i" (Mul (V "a") (V "x0i"));
    Assign "z0i" (Add (V "z0i") (Mul (V "b") (V "y0i")));
    Store (AtInc "Out" "index_z") (V "z0i");
    Assign "x1r" (Rd (AtInc "InScale" "index_x"));
    Assign "y1r" (Rd (AtInc "Add" "index_y"));
    Assign "z1r" (Mul (V "a") (V "x1r"));
    Assign "z1r" (Add (V "z1r") (Mul (V "b") (V "y1r")));
    Store (AtInc "Out" "index_z") (V "z1r");
    Assign "x1i" (Rd (AtInc "InScale" "index_x"));
    Assign "y1i" (Rd (AtInc "Add" "index_y"));
    Assign "z1i" (Mul (V "a") (V "x1i"));
    Assign "z1i" (Add (V "z1i") (Mul (V "b") (V "y1i")));
    Store (AtInc "Out" "index_z") (V "z1i");
    Assign "x2r" (Rd (AtInc "InScale" "index_x"));
    Assign "y2r" (Rd (AtInc "Add" "index_y"));
    Assign "z2r" (Mul (V "a") (V "x2r"));
    Assign "z2r" (Add (V "z2r") (Mul (V "b") (V "y2r")));
    Store (AtInc "Out" "index_z") (V "z2r");
    Assign "x2i" (Rd (AtInc "InScale" "index_x"));
    Assign "y2i" (Rd (AtInc "Add" "index_y"));
    Assign "z2i" (Mul (V "a") (V "x2i"));
    Assign "z2i" (Add (V "z2i") (Mul (V "b") (V "y2i")));
    Store (AtInc "Out" "index_z") (V "z2i");
    Assign "x0r" (Rd (AtInc "InScale" "index_x"));
    Assign "y0r" (Rd (AtInc "Add" "index_y"));
    Assign "z0r" (Mul (V "a") (V "x0r"));
    Assign "z0r" (Sub (V "z0r") (Mul (V "b") (V "y0r")));
    Store (AtInc "Out" "index_z") (V "z0r");
    Assign "x0i" (Rd (AtInc "InScale" "index_x"));
    Assign "y0i" (Rd (AtInc "Add" "index_y"));
    Assign "z0i" (Mul (V "a") (V "x0i"));
    Assign "z0i" (Sub (V "z0i") (Mul (V "b") (V "y0i")));
    Store (AtInc "Out" "index_z") (V "z0i");
    Assign "x1r" (Rd (AtInc "InScale" "index_x"));
    Assign "y1r" (Rd (AtInc "Add" "index_y"));
    Assign "z1r" (Mul (V "a") (V "x1r"));
    Assign "z1r" (Sub (V "z1r") (Mul (V "b") (V "y1r")));
    Store (AtInc "Out" "index_z") (V "z1r");
    Assign "x1i" (Rd (AtInc "InScale" "index_x"));
    Assign "y1i" (Rd (AtInc "Add" "index_y"));
    Assign "z1i" (Mul (V "a") (V "x1i"));
    Assign "z1i" (Sub (V "z1i") (Mul (V "b") (V "y1i")));
    Store (AtInc "Out" "index_z") (V "z1i");
    Assign "x2r" (Rd (AtInc "InScale" "index_x"));
    Assign "y2r" (Rd (AtInc "Add" "index_y"));
    Assign "z2r" (Mul (V "a") (V "x2r"));
    Assign "z2r" (Sub (V "z2r") (Mul (V "b") (V "y2r")));
    Store (AtInc "Out" "index_z") (V "z2r");
    Assign "x2i" (Rd (AtInc "InScale" "index_x"));
    Assign "y2i" (Rd (AtInc "Add" "index_y"));
    Assign "z2i" (Mul (V "a") (V "x2i"));
    Assign "z2i" (Sub (V "z2i") (Mul (V "b") (V "y2i")));
    Store (AtInc "Out" "index_z") (V "z2i");
    Assign "x0r" (Rd (AtInc "InScale" "index_x"));
    Assign "y0r" (Rd (AtInc "Add" "index_y"));
    Assign "z0r" (Mul (V "a") (V "x0r"));
    Assign "z0r" (Sub (V "z0r") (Mul (V "b") (V "y0r")));
    Store (AtInc "Out" "index_z") (V "z0r");
    Assign "x0i" (Rd (AtInc "InScale" "index_x"));
    Assign "y0i" (Rd (AtInc "Add" "index_y"));
    Assign "z0i" (Mul (V "a") (V "x0i"));
    Assign "z0i" (Sub (V "z0i") (Mul (V "b") (V "y0i")));
    Store (AtInc "Out" "index_z") (V "z0i");
    Assign "x1r" (Rd (AtInc "InScale" "index_x"));
    Assign "y1r" (Rd (AtInc "Add" "index_y"));
    Assign "z1r" (Mul (V "a") (V "x1r"));
    Assign "z1r" (Sub (V "z1r") (Mul (V "b") (V "y1r")));
    Store (AtInc "Out" "index_z") (V "z1r");
    Assign "x1i" (Rd (AtInc "InScale" "index_x"));
    Assign "y1i" (Rd (AtInc "Add" "index_y"));
    Assign "z1i" (Mul (V "a") (V "x1i"));
    Assign "z1i" (Sub (V "z1i") (Mul (V "b") (V "y1i")));
    Store (AtInc "Out" "index_z") (V "z1i");
    Assign "x2r" (Rd (AtInc "InScale" "index_x"));
    Assign "y2r" (Rd (AtInc "Add" "index_y"));
    Assign "z2r" (Mul (V "a") (V "x2r"));
    Assign "z2r" (Sub (V "z2r") (Mul (V "b") (V "y2r")));
    Store (AtInc "Out" "index_z") (V "z2r");
    Assign "x2i" (Rd (AtInc "InScale" "index_x"));
    Assign "y2i" (Rd (AtInc "Add" "index_y"));
    Assign "z2i" (Mul (V "a") (V "x2i"));
    Assign "z2i" (Sub (V "z2i") (Mul (V "b") (V "y2i")));
    Store (AtInc "Out" "index_z") (V "z2i")])].

(** [xmayz_g5], generic_blas_g5.h 335-501. *)
Definition xmayz_g5 : stmt := seq [
  Assign "a" (Rd (At "scalep" (IC 0)));
  Int "index_x" (IC 0);
  Int "index_y" (IC 0);
  Int "index_z" (IC 0);
  For "counter" (IC 0) (IV "n_4vec") 1 (seq [
    Assign "x0r" (Rd (AtInc "Add" "index_x"));
    Assign "y0r" (Rd (AtInc "InScale" "index_y"));
    Assign "z0r" (Sub (V "x0r") (Mul (V "a") (V "y0r")));
    Store (AtInc "Out" "index_z") (V "z0r");
    Assign "x0i" (Rd (AtInc "Add" "index_x"));
    Assign "y0i" (Rd (AtInc "InScale" "index_y"));
    Assign "z0i" (Sub (V "x0i") (Mul (V "a") (V "y0i")));
    Store (AtInc "Out" "index_z") (V "z0i");
    Assign "x1r" (Rd (AtInc "Add" "index_x"));
    Assign "y1r" (Rd (AtInc "InScale" "index_y"));
    Assign "z1r" (Sub (V "x1r") (Mul (V "a") (V "y1r")));
    Store (AtInc "Out" "index_z") (V "z1r");
    Assign "x1i" (Rd (AtInc "Add" "index_x"));
    Assign "y1i" (Rd (AtInc "InScale" "index_y"));
    Assign "z1i" (Sub (V "x1i") (Mul (V "a") (V "y1i")));
    Store (AtInc "Out" "index_z") (V "z1i");
    Assign "x2r" (Rd (AtInc "Add" "index_x"));
    Assign "y2r" (Rd (AtInc "InScale" "index_y"));
    Assign "z2r" (Sub (V "x2r") (Mul (V "a") (V "y2r")));
    Store (AtInc "Out" "index_z") (V "z2r");
    Assign "x2i" (Rd (AtInc "Add" "index_x"));
    Assign "y2i" (Rd (AtInc "InScale" "index_y"));
    Assign "z2i" (Sub (V "x2i") (Mul (V "a") (V "y2i")));
    Store (AtInc "Out" "index_z") (V "z2i");
    Assign "x0r" (Rd (AtInc "Add" "index_x"));
    Assign "y0r" (Rd (AtInc "InScale" "index_y"));
    Assign "z0r" (Sub (V "x0r") (Mul (V "a") (V "y0r")));
    Store (AtInc "Out" "index_z") (V "z0r");
    Assign "x0i" (Rd (AtInc "Add" "index_x"));
    Assign "y0i" (Rd (AtInc "InScale" "index_y"));
    Assign "z0i" (Sub (V "x0i") (Mul (V "a") (V "y0i")));
    Store (AtInc "Out" "index_z") (V "z0i");
    Assign "x1r" (Rd (AtInc "Add" "index_x"));
    Assign "y1r" (Rd (AtInc "InScale" "index_y"));
    Assign "z1r" (Sub (V "x1r") (Mul (V "a") (V "y1r")));
    Store (AtInc "Out" "index_z") (V "z1r");
    Assign "x1i" (Rd (AtInc "Add" "index_x"));
    Assign "y1i" (Rd (AtInc "InScale" "index_y"));
    Assign "z1i" (Sub (V "x1i") (Mul (V "a") (V "y1i")));
    Store (AtInc "Out" "index_z") (V "z1i");
    Assign "x2r" (Rd (AtInc "Add" "index_x"));
    Assign "y2r" (Rd (AtInc "InScale" "index_y"));
    Assign "z2r" (Sub (V "x2r") (Mul (V "a") (V "y2r")));
    Store (AtInc "Out" "index_z") (V "z2r");
    Assign "x2i" (Rd (AtInc "Add" "index_x"));
    Assign "y2i" (Rd (AtInc "InScale" "index_y"));
    Assign "z2i" (Sub (V "x2i") (Mul (V "a") (V "y2i")));
    Store (AtInc "Out" "index_z") (V "z2i");
    Assign "x0r" (Rd (AtInc "Add" "index_x"));
    Assign "y0r" (Rd (AtInc "InScale" "index_y"));
    Assign "z0r" (Add (V "x0r") (Mul (V "a") (V "y0r")));
    Store (AtInc "Out" "index_z") (V "z0r");
    Assign "x0i" (Rd (AtInc "Add" "index_x"));
    Assign "y0i" (Rd (AtInc "InScale" "index_y"));
    Assign "z0i" (Add (V "x0i") (Mul (V "a") (V "y0i")));
    Store (AtInc "Out" "index_z") (V "z0i");
    Assign "x1r" (Rd (AtInc "Add" "index_x"));
    Assign "y1r" (Rd (AtInc "InScale" "index_y"));
    Assign "z1r" (Add (V "x1r") (Mul (V "a") (V "y1r")));
    Store (AtInc "Out" "index_z") (V "z1r");
    Assign "x1i" (Rd (AtInc "Add" "index_x"));
    Assign "y1i" (Rd (AtInc "InScale" "index_y"));
    Assign "z1i" (Add (V "x1i") (Mul (V "a") (V "y1i")));
    Store (AtInc "Out" "index_z") (V "z1i");
    Assign "x2r" (Rd (AtInc "Add" "index_x"));
    Assign "y2r" (Rd (AtInc "InScale" "index_y"));
    Assign "z2r" (Add (V "x2r") (Mul (V "a") (V "y2r")));
    Store (AtInc "Out" "index_z") (V "z2r");
    Assign "x2i" (Rd (AtInc "Add" "index_x"));
    Assign "y2i" (Rd (AtInc "InScale" "index_y"));
    Assign "z2i" (Add (V "x2i") (Mul (V "a") (V "y2i")));
    Store (AtInc "Out" "index_z") (V "z2i");
    Assign "x0r" (Rd (AtInc "Add" "index_x"));
    Assign "y0r" (Rd (AtInc "InScale" "index_y"));
    Assign "z0r" (Add (V "x0r") (Mul (V "a") (V "y0r")));
    Store (AtInc "Out" "index_z") (V "z0r");
    Assign "x0i" (Rd (AtInc "Add" "index_x"));
    Assign "y0i" (Rd (AtInc "InScale" "index_y"));
    Assign "z0i" (Add (V "x0i") (Mul (V "a") (V "y0i")));
    Store (AtInc "Out" "index_z") (V "z0i");
    Assign "x1r" (Rd (AtInc "Add" "index_x"));
    Assign "y1r" (Rd (AtInc "InScale" "index_y"));
    Assign "z1r" (Add (V "x1r") (Mul (V "a") (V "y1r")));
    Store (AtInc "Out" "index_z") (V "z1r");
    Assign "x1i" (Rd (AtInc "Add" "index_x"));
    Assign "y1i" (Rd (AtInc "InScale" "index_y"));
    Assign "z1i" (Add (V "x1i") (Mul (V "a") (V "y1i")));
    Store (AtInc "Out" "index_z") (V "z1i");
    Assign "x2r" (Rd (AtInc "Add" "index_x"));
    Assign "y2r" (Rd (AtInc "InScale" "index_y"));
    Assign "z2r" (Add (V "x2r") (Mul (V "a") (V "y2r")));
    Store (AtInc "Out" "index_z") (V "z2r");
    Assign "x2i" (Rd (AtInc "Add" "index_x"));
    Assign "y2i" (Rd (AtInc "InScale" "index_y"));
    Assign "z2i" (Add (V "x2i") (Mul (V "a") (V "y2i")));
    Store (AtInc "Out" "index_z") (V "z2i")])].

(** [g5_axmbyz], generic_blas_g5.h 505-700. *)
Definition g5_axmbyz : stmt := seq [
  Assign "a" (Rd (At "scalep" (IC 0)));
  Assign "b" (Rd (At "scalep2" (IC 0)));
  Int "index_x" (IC 0);
  Int "index_y" (IC 0);
  Int "index_z" (IC 0);
  For "counter" (IC 0) (IV "n_4vec") 1 (seq [
    Assign "x0r" (Rd (AtInc "InScale" "index_x"));
    Assign "y0r" (Rd (AtInc "Add" "index_y"));
    Assign "z0r" (Mul (V "a") (V "x0r"));
    Assign "z0r" (Sub (V "z0r") (Mul (V "b") (V "y0r")));
    Store (AtInc "Out" "index_z") (V "z0r");
    Assign "x0i" (Rd (AtInc "InScale" "index_x"));
    Assign "y0i" (Rd (AtInc "Add" "index_y"));
    Assign "z0i" (Mul (V "a") (V "x0i"));
    Assign "z0i" (Sub (V "z0i") (Mul (V "b") (V "y0i")));
    Store (AtInc "Out" "index_z") (V "z0i");
    Assign "x1r" (Rd (AtInc "InScale" "index_x"));
    Assign "y1r" (Rd (AtInc "Add" "index_y"));
    Assign "z1r" (Mul (V "a") (V "x1r"));
    Assign "z1r" (Sub (V "z1r") (Mul (V "b") (V "y1r")));
    Store (AtInc "Out" "index_z") (V "z1r");
    Assign "x1i" (Rd (AtInc "InScale" "index_x"));
    Assign "y1i" (Rd (AtInc "Add" "index_y"));
    Assign "z1i" (Mul (V "a") (V "x1i"));
    Assign "z1i" (Sub (V "z1i") (Mul (V "b") (V "y1i")));
    Store (AtInc "Out" "index_z") (V "z1i");
    Assign "x2r" (Rd (AtInc "InScale" "index_x"));
    Assign "y2r" (Rd (AtInc "Add" "index_y"));
    Assign "z2r" (Mul (V "a") (V "x2r"));
    Assign "z2r" (Sub (V "z2r") (Mul (V "b") (V "y2r")));
    Store (AtInc "Out" "index_z") (V "z2r");
    Assign "x2i" (Rd (AtInc "InScale" "index_x"));
    Assign "y2i" (Rd (AtInc "Add" "index_y"));
    Assign "z2i" (Mul (V "a") (V "x2i"));
    Assign "z2i" (Sub (V "z2i") (Mul (V "b") (V "y2i")));
    Store (AtInc "Out" "index_z") (V "z2i");
    Assign "x0r" (Rd (AtInc "InScale" "index_x"));
    Assign "y0r" (Rd (AtInc "Add" "index_y"));
    Assign "z0r" (Mul (V "a") (V "x0r"));
    Assign "z0r" (Sub (V "z0r") (Mul (V "b") (V "y0r")));
    Store (AtInc "Out" "index_z") (V "z0r");
    Assign "x0i" (Rd (AtInc "InScale" "index_x"));
    Assign "y0i" (Rd (AtInc "Add" "index_y"));
    Assign "z0i" (Mul (V "a") (V "x0i"));
    Assign "z0i" (Sub (V "z0i") (Mul (V "b") (V "y0i")));
    Store (AtInc "Out" "index_z") (V "z0i");
    Assign "x1r" (Rd (AtInc "InScale" "index_x"));
    Assign "y1r" (Rd (AtInc "Add" "index_y"));
    Assign "z1r" (Mul (V "a") (V "x1r"));
    Assign "z1r" (Sub (V "z1r") (Mul (V "b") (V "y1r")));
    Store (AtInc "Out" "index_z") (V "z1r");
    Assign "x1i" (Rd (AtInc "InScale" "index_x"));
    Assign "y1i" (Rd (AtInc "Add" "index_y"));
    Assign "z1i" (Mul (V "a") (V "x1i"));
    Assign "z1i" (Sub (V "z1i") (Mul (V "b") (V "y1i")));
    Store (AtInc "Out" "index_z") (V "z1i");
    Assign "x2r" (Rd (AtInc "InScale" "index_x"));
    Assign "y2r" (Rd (AtInc "Add" "index_y"));
    Assign "z2r" (Mul (V "a") (V "x2r"));
    Assign "z2r" (Sub (V "z2r") (Mul (V "b") (V "y2r")));
    Store (AtInc "Out" "index_z") (V "z2r");
    Assign "x2i" (Rd (AtInc "InScale" "index_x"));
    Assign "y2i" (Rd (AtInc "Add" "index_y"));
    Assign "z2i" (Mul (V "a") (V "x2i"));
    Assign "z2i" (Sub (V "z2i") (Mul (V "b") (V "y2i")));
    Store (AtInc "Out" "index_z") (V "z2i");
    Assign "x0r" (Rd (AtInc "InScale" "index_x"));
    Assign "y0r" (Rd (AtInc "Add" "index_y"));
    Assign "z0r" (Mul (V "b") (V "y0r"));
    Assign "z0r" (Sub (V "z0r") (Mul (V "a") (V "x0r")));
    Store (AtInc "Out" "index_z") (V "z0r");
    Assign "x0i" (Rd (AtInc "InScale" "index_x"));
    Assign "y0i" (Rd (AtInc "Add" "index_y"));
    Assign "z0i" (Mul (V "b") (V "y0i"));
    Assign "z0i" (Sub (V "z0i") (Mul (V "a") (V "x0i")));
    Store (AtInc "Out" "index_z") (V "z0i");
    Assign "x1r" (Rd (AtInc "InScale" "index_x"));
    Assign "y1r" (Rd (AtInc "Add" "index_y"));
    Assign "z1r" (Mul (V "b") (V "y1r"));
    Assign "z1r" (Sub (V "z1r") (Mul (V "a") (V "x1r")));
    Store (AtInc "Out" "index_z") (V "z1r");
    Assign "x1i" (Rd (AtInc "InScale" "index_x"));
    Assign "y1i" (Rd (AtInc "Add" "index_y"));
    Assign "z1i" (Mul (V "b") (V "y1i"));
    Assign "z1i" (Sub (V "z1i") (Mul (V "a") (V "x1i")));
    Store (AtInc "Out" "index_z") (V "z1i");
    Assign "x2r" (Rd (AtInc "InScale" "index_x"));
    Assign "y2r" (Rd (AtInc "Add" "index_y"));
    Assign "z2r" (Mul (V "b") (V "y2r"));
    Assign "z2r" (Sub (V "z2r") (Mul (V "a") (V "x2r")));
    Store (AtInc "Out" "index_z") (V "z2r");
    Assign "x2i" (Rd (AtInc "InScale" "index_x"));
    Assign "y2i" (Rd (AtInc "Add" "index_y"));
    Assign "z2i" (Mul (V "b") (V "y2i"));
    Assign "z2i" (Sub (V "z2i") (Mul (V "a") (V "x2i")));
    Store (AtInc "Out" "index_z") (V "z2i");
    Assign "x0r" (Rd (AtInc "InScale" "index_x"));
    Assign "y0r" (Rd (AtInc "Add" "index_y"));
    Assign "z0r" (Mul (V "b") (V "y0r"));
    Assign "z0r" (Sub (V "z0r") (Mul (V "a") (V "x0r")));
    Store (AtInc "Out" "index_z") (V "z0r");
    Assign "x0i" (Rd (AtInc "InScale" "index_x"));
    Assign "y0i" (Rd (AtInc "Add" "index_y"));
    Assign "z0i" (Mul (V "b") (V "y0i"));
    Assign "z0i" (Sub (V "z0i") (Mul (V "a") (V "x0i")));
    Store (AtInc "Out" "index_z") (V "z0i");
    Assign "x1r" (Rd (AtInc "InScale" "index_x"));
    Assign "y1r" (Rd (AtInc "Add" "index_y"));
    Assign "z1r" (Mul (V "b") (V "y1r"));
    Assign "z1r" (Sub (V "z1r") (Mul (V "a") (V "x1r")));
    Store (AtInc "Out" "index_z") (V "z1r");
    Assign "x1i" (Rd (AtInc "InScale" "index_x"));
    Assign "y1i" (Rd (AtInc "Add" "index_y"));
    Assign "z1i" (Mul (V "b") (V "y1i"));
    Assign "z1i" (Sub (V "z1i") (Mul (V "a") (V "x1i")));
    Store (AtInc "Out" "index_z") (V "z1i");
    Assign "x2r" (Rd (AtInc "InScale" "index_x"));
    Assign "y2r" (Rd (AtInc "Add" "index_y"));
    Assign "z2r" (Mul (V "b") (V "y2r"));
    Assign "z2r" (Sub (V "z2r") (Mul (V "a") (V "x2r")));
    Store (AtInc "Out" "index_z") (V "z2r");
    Assign "x2i" (Rd (AtInc "InScale" "index_x"));
    Assign "y2i" (Rd (AtInc "Add" "index_y"));
    Assign "z2i" (Mul (V "b") (V "y2i"));
    Assign "z2i" (Sub (V "z2i") (Mul (V "a") (V "x2i")));
    Store (AtInc "Out" "index_z") (V "z2i")])].

(** [axpbyz_ig5], generic_blas_g5.h 704-898. *)
Definition axpbyz_ig5 : stmt := seq [
  Assign "a" (Rd (At "scalep" (IC 0)));
  Assign "b" (Rd (At "scalep2" (IC 0)));
  Int "index_x" (IC 0);
  Int "index_y" (IC 0);
  Int "index_z" (IC 0);
  For "counter" (IC 0) (IV "n_4vec") 1 (seq [
    Assign "x0r" (Rd (AtInc "InScale" "index_x"));
    Assign "x0i" (Rd (AtInc "InScale" "index_x"));
    Assign "y0r" (Rd (AtInc "Add" "index_y"));
    Assign "y0i" (Rd (AtInc "Add" "index_y"));
    Assign "z0r" (Mul (V "a") (V "x0r"));
    Assign "z0r" (Sub (V "z0r") (Mul (V "b") (V "y0i")));
    Store (AtInc "Out" "index_z") (V "z0r");
    Assign "z0i" (Mul (V "a") (V "x0i"));
    Assign "z0i" (Add (V "z0i") (Mul (V "b") (V "y0r")));
    Store (AtInc "Out" "index_z") (V "z0i");
    Assign "x1r" (Rd (AtInc "InScale" "index_x"));
    Assign "x1i" (Rd (AtInc "InScale" "index_x"));
    Assign "y1r" (Rd (AtInc "Add" "index_y"));
    Assign "y1i" (Rd (AtInc "Add" "index_y"));
    Assign "z1r" (Mul (V "a") (V "x1r"));
    Assign "z1r" (Sub (V "z1r") (Mul (V "b") (V "y1i")));
    Store (AtInc "Out" "index_z") (V "z1r");
    Assign "z1i" (Mul (V "a") (V "x1i"));
    Assign "z1i" (Add (V "z1i") (Mul (V "b") (V "y1r")));
    Store (AtInc "Out" "index_z") (V "z1i");
    Assign "x2r" (Rd (AtInc "InScale" "index_x"));
    Assign "x2i" (Rd (AtInc "InScale" "index_x"));
    Assign "y2r" (Rd (AtInc "Add" "index_y"));
    Assign "y2i" (Rd (AtInc "Add" "index_y"));
    Assign "z2r" (Mul (V "a") (V "x2r"));
    Assign "z2r" (Sub (V "z2r") (Mul (V "b") (V "y2i")));
    Store (AtInc "Out" "index_z") (V "z2r");
    Assign "z2i" (Mul (V "a") (V "x2i"));
    Assign "z2i" (Add (V "z2i") (Mul (V "b") (V "y2r")));
    Store (AtInc "Out" "index_z") (V "z2i");
    Assign "x0r" (Rd (AtInc "InScale" "index_x"));
    Assign "x0i" (Rd (AtInc "InScale" "index_x"));
    Assign "y0r" (Rd (AtInc "Add" "index_y"));
    Assign "y0i" (Rd (AtInc "Add" "index_y"));
    Assign "z0r" (Mul (V "a") (V "x0r"));
    Assign "z0r" (Sub (V "z0r") (Mul (V "b") (V "y0i")));
    Store (AtInc "Out" "index_z") (V "z0r");
    Assign "z0i" (Mul (V "a") (V "x0i"));
    Assign "z0i" (Add (V "z0i") (Mul (V "b") (V "y0r")));
    Store (AtInc "Out" "index_z") (V "z0i");
    Assign "x1r" (Rd (AtInc "InScale" "index_x"));
    Assign "x1i" (Rd (AtInc "InScale" "index_x"));
    Assign "y1r" (Rd (AtInc "Add" "index_y"));
    Assign "y1i" (Rd (AtInc "Add" "index_y"));
    Assign "z1r" (Mul (V "a") (V "x1r"));
    Assign "z1r" (Sub (V "z1r") (Mul (V "b") (V "y1i")));
    Store (AtInc "Out" "index_z") (V "z1r");
    Assign "z1i" (Mul (V "a") (V "x1i"));
    Assign "z1i" (Add (V "z1i") (Mul (V "b") (V "y1r")));
    Store (AtInc "Out" "index_z") (V "z1i");
    Assign "x2r" (Rd (AtInc "InScale" "index_x"));
    Assign "x2i" (Rd (AtInc "InScale" "index_x"));
    Assign "y2r" (Rd (AtInc "Add" "index_y"));
    Assign "y2i" (Rd (AtInc "Add" "index_y"));
    Assign "z2r" (Mul (V "a") (V "x2r"));
    Assign "z2r" (Sub (V "z2r") (Mul (V "b") (V "y2i")));
    Store (AtInc "Out" "index_z") (V "z2r");
    Assign "z2i" (Mul (V "a") (V "x2i"));
    Assign "z2i" (Add (V "z2i") (Mul (V "b") (V "y2r")));
    Store (AtInc "Out" "index_z") (V "z2i");
    Assign "x0r" (Rd (AtInc "InScale" "index_x"));
    Assign "x0i" (Rd (AtInc "InScale" "index_x"));
    Assign "y0r" (Rd (AtInc "Add" "index_y"));
    Assign "y0i" (Rd (AtInc "Add" "index_y"));
    Assign "z0r" (Mul (V "a") (V "x0r"));
    Assign "z0r" (Add (V "z0r") (Mul (V "b") (V "y0i")));
    Store (AtInc "Out" "index_z") (V "z0r");
    Assign "z0i" (Mul (V "a") (V "x0i"));
    Assign "z0i" (Sub (V "z0i") (Mul (V "b") (V "y0r")));
    Store (AtInc "Out" "index_z") (V "z0i");
    Assign "x1r" (Rd (AtInc "InScale" "index_x"));
    Assign "x1i" (Rd (AtInc "InScale" "index_x"));
    Assign "y1r" (Rd (AtInc "Add" "index_y"));
    Assign "y1i" (Rd (AtInc "Add" "index_y"));
    Assign "z1r" (Mul (V "a") (V "x1r"));
    Assign "z1r" (Add (V "z1r") (Mul (V "b") (V "y1i")));
    Store (AtInc "Out" "index_z") (V "z1r");
    Assign "z1i" (Mul (V "a") (V "x1i"));
    Assign "z1i" (Sub (V "z1i") (Mul (V "b") (V "y1r")));
    Store (AtInc "Out" "index_z") (V "z1i");
    Assign "x2r" (Rd (AtInc "InScale" "index_x"));
    Assign "x2i" (Rd (AtInc "InScale" "index_x"));
    Assign "y2r" (Rd (AtInc "Add" "index_y"));
    Assign "y2i" (Rd (AtInc "Add" "index_y"));
    Assign "z2r" (Mul (V "a") (V "x2r"));
    Assign "z2r" (Add (V "z2r") (Mul (V "b") (V "y2i")));
    Store (AtInc "Out" "index_z") (V "z2r");
    Assign "z2i" (Mul (V "a") (V "x2i"));
    Assign "z2i" (Sub (V "z2i") (Mul (V "b") (V "y2r")));
    Store (AtInc "Out" "index_z") (V "z2i");
    Assign "x0r" (Rd (AtInc "InScale" "index_x"));
    Assign "x0i" (Rd (AtInc "InScale" "index_x"));
    Assign "y0r" (Rd (AtInc "Add" "index_y"));
    Assign "y0i" (Rd (AtInc "Add" "index_y"));
    Assign "z0r" (Mul (V "a") (V "x0r"));
    Assign "z0r" (Add (V "z0r") (Mul (V "b") (V "y0i")));
    Store (AtInc "Out" "index_z") (V "z0r");
    Assign "z0i" (Mul (V "a") (V "x0i"));
    Assign "z0i" (Sub (V "z0i") (Mul (V "b") (V "y0r")));
    Store (AtInc "Out" "index_z") (V "z0i");
    Assign "x1r" (Rd (AtInc "InScale" "index_x"));
    Assign "x1i" (Rd (AtInc "InScale" "index_x"));
    Assign "y1r" (Rd (AtInc "Add" "index_y"));
    Assign "y1i" (Rd (AtInc "Add" "index_y"));
    Assign "z1r" (Mul (V "a") (V "x1r"));
    Assign "z1r" (Add (V "z1r") (Mul (V "b") (V "y1i")));
    Store (AtInc "Out" "index_z") (V "z1r");
    Assign "z1i" (Mul (V "a") (V "x1i"));
    Assign "z1i" (Sub (V "z1i") (Mul (V "b") (V "y1r")));
    Store (AtInc "Out" "index_z") (V "z1i");
    Assign "x2r" (Rd (AtInc "InScale" "index_x"));
    Assign "x2i" (Rd (AtInc "InScale" "index_x"));
    Assign "y2r" (Rd (AtInc "Add" "index_y"));
    Assign "y2i" (Rd (AtInc "Add" "index_y"));
    Assign "z2r" (Mul (V "a") (V "x2r"));
    Assign "z2r" (Add (V "z2r") (Mul (V "b") (V "y2i")));
    Store (AtInc "Out" "index_z") (V "z2r");
    Assign "z2i" (Mul (V "a") (V "x2i"));
    Assign "z2i" (Sub (V "z2i") (Mul (V "b") (V "y2r")));
    Store (AtInc "Out" "index_z") (V "z2i")])].

(** [axmbyz_ig5], generic_blas_g5.h 903-1095. *)
Definition axmbyz_ig5 : stmt := seq [
  Assign "a" (Rd (At "scalep" (IC 0)));
  Assign "b" (Rd (At "scalep2" (IC 0)));
  Int "index_x" (IC 0);
  Int "index_y" (IC 0);
  Int "index_z" (IC 0);
  For "counter" (IC 0) (IV "n_4vec") 1 (seq [
    Assign "x0r" (Rd (AtInc "InScale" "index_x"));
    Assign "x0i" (Rd (AtInc "InScale" "index_x"));
    Assign "y0r" (Rd (AtInc "Add" "index_y"));
    Assign "y0i" (Rd (AtInc "Add" "index_y"));
    Assign "z0r" (Mul (V "a") (V "x0r"));
    Assign "z0r" (Add (V "z0r") (Mul (V "b") (V "y0i")));
    Store (AtInc "Out" "index_z") (V "z0r");
    Assign "z0i" (Mul (V "a") (V "x0i"));
    Assign "z0i" (Sub (V "z0i") (Mul (V "b") (V "y0r")));
    Store (AtInc "Out" "index_z") (V "z0i");
    Assign "x1r" (Rd (AtInc "InScale" "index_x"));
    Assign "x1i" (Rd (AtInc "InScale" "index_x"));
    Assign "y1r" (Rd (AtInc "Add" "index_y"));
    Assign "y1i" (Rd (AtInc "Add" "index_y"));
    Assign "z1r" (Mul (V "a") (V "x1r"));
    Assign "z1r" (Add (V "z1r") (Mul (V "b") (V "y1i")));
    Store (AtInc "Out" "index_z") (V "z1r");
    Assign "z1i" (Mul (V "a") (V "x1i"));
    Assign "z1i" (Sub (V "z1i") (Mul (V "b") (V "y1r")));
    Store (AtInc "Out" "index_z") (V "z1i");
    Assign "x2r" (Rd (AtInc "InScale" "index_x"));
    Assign "x2i" (Rd (AtInc "InScale" "index_x"));
    Assign "y2r" (Rd (AtInc "Add" "index_y"));
    Assign "y2i" (Rd (AtInc "Add" "index_y"));
    Assign "z2r" (Mul (V "a") (V "x2r"));
    Assign "z2r" (Add (V "z2r") (Mul (V "b") (V "y2i")));
    Store (AtInc "Out" "index_z") (V "z2r");
    Assign "z2i" (Mul (V "a") (V "x2i"));
    Assign "z2i" (Sub (V "z2i") (Mul (V "b") (V "y2r")));
    Store (AtInc "Out" "index_z") (V "z2i");
    Assign "x0r" (Rd (AtInc "InScale" "index_x"));
    Assign "x0i" (Rd (AtInc "InScale" "index_x"));
    Assign "y0r" (Rd (AtInc "Add" "index_y"));
    Assign "y0i" (Rd (AtInc "Add" "index_y"));
    Assign "z0r" (Mul (V "a") (V "x0r"));
    Assign "z0r" (Add (V "z0r") (Mul (V "b") (V "y0i")));
    Store (AtInc "Out" "index_z") (V "z0r");
    Assign "z0i" (Mul (V "a") (V "x0i"));
    Assign "z0i" (Sub (V "z0i") (Mul (V "b") (V "y0r")));
    Store (AtInc "Out" "index_z") (V "z0i");
    Assign "x1r" (Rd (AtInc "InScale" "index_x"));
    Assign "x1i" (Rd (AtInc "InScale" "index_x"));
    Assign "y1r" (Rd (AtInc "Add" "index_y"));
    Assign "y1i" (Rd (AtInc "Add" "index_y"));
    Assign "z1r" (Mul (V "a") (V "x1r"));
    Assign "z1r" (Add (V "z1r") (Mul (V "b") (V "y1i")));
    Store (AtInc "Out" "index_z") (V "z1r");
    Assign "z1i" (Mul (V "a") (V "x1i"));
    Assign "z1i" (Sub (V "z1i") (Mul (V "b") (V "y1r")));
    Store (AtInc "Out" "index_z") (V "z1i");
    Assign "x2r" (Rd (AtInc "InScale" "index_x"));
    Assign "x2i" (Rd (AtInc "InScale" "index_x"));
    Assign "y2r" (Rd (AtInc "Add" "index_y"));
    Assign "y2i" (Rd (AtInc "Add" "index_y"));
    Assign "z2r" (Mul (V "a") (V "x2r"));
    Assign "z2r" (Add (V "z2r") (Mul (V "b") (V "y2i")));
    Store (AtInc "Out" "index_z") (V "z2r");
    Assign "z2i" (Mul (V "a") (V "x2i"));
    Assign "z2i" (Sub (V "z2i") (Mul (V "b") (V "y2r")));
    Store (AtInc "Out" "index_z") (V "z2i");
    Assign "x0r" (Rd (AtInc "InScale" "index_x"));
    Assign "x0i" (Rd (AtInc "InScale" "index_x"));
    Assign "y0r" (Rd (AtInc "Add" "index_y"));
    Assign "y0i" (Rd (AtInc "Add" "index_y"));
    Assign "z0r" (Mul (V "a") (V "x0r"));
    Assign "z0r" (Sub (V "z0r") (Mul (V "b") (V "y0i")));
    Store (AtInc "Out" "index_z") (V "z0r");
    Assign "z0i" (Mul (V "a") (V "x0i"));
    Assign "z0i" (Add (V "z0i") (Mul (V "b") (V "y0r")));
    Store (AtInc "Out" "index_z") (V "z0i");
    Assign "x1r" (Rd (AtInc "InScale" "index_x"));
    Assign "x1i" (Rd (AtInc "InScale" "index_x"));
    Assign "y1r" (Rd (AtInc "Add" "index_y"));
    Assign "y1i" (Rd (AtInc "Add" "index_y"));
    Assign "z1r" (Mul (V "a") (V "x1r"));
    Assign "z1r" (Sub (V "z1r") (Mul (V "b") (V "y1i")));
    Store (AtInc "Out" "index_z") (V "z1r");
    Assign "z1i" (Mul (V "a") (V "x1i"));
    Assign "z1i" (Add (V "z1i") (Mul (V "b") (V "y1r")));
    Store (AtInc "Out" "index_z") (V "z1i");
    Assign "x2r" (Rd (AtInc "InScale" "index_x"));
    Assign "x2i" (Rd (AtInc "InScale" "index_x"));
    Assign "y2r" (Rd (AtInc "Add" "index_y"));
    Assign "y2i" (Rd (AtInc "Add" "index_y"));
    Assign "z2r" (Mul (V "a") (V "x2r"));
    Assign "z2r" (Sub (V "z2r") (Mul (V "b") (V "y2i")));
    Store (AtInc "Out" "index_z") (V "z2r");
    Assign "z2i" (Mul (V "a") (V "x2i"));
    Assign "z2i" (Add (V "z2i") (Mul (V "b") (V "y2r")));
    Store (AtInc "Out" "index_z") (V "z2i");
    Assign "x0r" (Rd (AtInc "InScale" "index_x"));
    Assign "x0i" (Rd (AtInc "InScale" "index_x"));
    Assign "y0r" (Rd (AtInc "Add" "index_y"));
    Assign "y0i" (Rd (AtInc "Add" "index_y"));
    Assign "z0r" (Mul (V "a") (V "x0r"));
    Assign "z0r" (Sub (V "z0r") (Mul (V "b") (V "y0i")));
    Store (AtInc "Out" "index_z") (V "z0r");
    Assign "z0i" (Mul (V "a") (V "x0i"));
    Assign "z0i" (Add (V "z0i") (Mul (V "b") (V "y0r")));
    Store (AtInc "Out" "index_z") (V "z0i");
    Assign "x1r" (Rd (AtInc "InScale" "index_x"));
    Assign "x1i" (Rd (AtInc "InScale" "index_x"));
    Assign "y1r" (Rd (AtInc "Add" "index_y"));
    Assign "y1i" (Rd (AtInc "Add" "index_y"));
    Assign "z1r" (Mul (V "a") (V "x1r"));
    Assign "z1r" (Sub (V "z1r") (Mul (V "b") (V "y1i")));
    Store (AtInc "Out" "index_z") (V "z1r");
    Assign "z1i" (Mul (V "a") (V "x1i"));
    Assign "z1i" (Add (V "z1i") (Mul (V "b") (V "y1r")));
    Store (AtInc "Out" "index_z") (V "z1i");
    Assign "x2r" (Rd (AtInc "InScale" "index_x"));
    Assign "x2i" (Rd (AtInc "InScale" "index_x"));
    Assign "y2r" (Rd (AtInc "Add" "index_y"));
    Assign "y2i" (Rd (AtInc "Add" "index_y"));
    Assign "z2r" (Mul (V "a") (V "x2r"));
    Assign "z2r" (Sub (V "z2r") (Mul (V "b") (V "y2i")));
    Store (AtInc "Out" "index_z") (V "z2r");
    Assign "z2i" (Mul (V "a") (V "x2i"));
    Assign "z2i" (Add (V "z2i") (Mul (V "b") (V "y2r")));
    Store (AtInc "Out" "index_z") (V "z2i")])].

(** [xpayz_ig5], generic_blas_g5.h 1101-1267. *)
Definition xpayz_ig5 : stmt := seq [
  Assign "a" (Rd (At "scalep" (IC 0)));
  Int "index_x" (IC 0);
  Int "index_y" (IC 0);
  Int "index_z" (IC 0);
  For "counter" (IC 0) (IV "n_4vec") 1 (seq [
    Assign "x0r" (Rd (AtInc "InScale" "index_x"));
    Assign "x0i" (Rd (AtInc "InScale" "index_x"));
    Assign "y0r" (Rd (AtInc "Add" "index_y"));
    Assign "y0i" (Rd (AtInc "Add" "index_y"));
    Assign "z0r" (Sub (V "x0r") (Mul (V "a") (V "y0i")));
    Store (AtInc "Out" "index_z") (V "z0r");
    Assign "z0i" (Add (V "x0i") (Mul (V "a") (V "y0r")));
    Store (AtInc "Out" "index_z") (V "z0i");
    Assign "x1r" (Rd (AtInc "InScale" "index_x"));
    Assign "x1i" (Rd (AtInc "InScale" "index_x"));
    Assign "y1r" (Rd (AtInc "Add" "index_y"));
    Assign "y1i" (Rd (AtInc "Add" "index_y"));
    Assign "z1r" (Sub (V "x1r") (Mul (V "a") (V "y1i")));
    Store (AtInc "Out" "index_z") (V "z1r");
    Assign "z1i" (Add (V "x1i") (Mul (V "a") (V "y1r")));
    Store (AtInc "Out" "index_z") (V "z1i");
    Assign "x2r" (Rd (AtInc "InScale" "index_x"));
    Assign "x2i" (Rd (AtInc "InScale" "index_x"));
    Assign "y2r" (Rd (AtInc "Add" "index_y"));
    Assign "y2i" (Rd (AtInc "Add" "index_y"));
    Assign "z2r" (Sub (V "x2r") (Mul (V "a") (V "y2i")));
    Store (AtInc "Out" "index_z") (V "z2r");
    Assign "z2i" (Add (V "x2i") (Mul (V "a") (V "y2r")));
    Store (AtInc "Out" "index_z") (V "z2i");
    Assign "x0r" (Rd (AtInc "InScale" "index_x"));
    Assign "x0i" (Rd (AtInc "InScale" "index_x"));
    Assign "y0r" (Rd (AtInc "Add" "index_y"));
    Assign "y0i" (Rd (AtInc "Add" "index_y"));
    Assign "z0r" (Sub (V "x0r") (Mul (V "a") (V "y0i")));
    Store (AtInc "Out" "index_z") (V "z0r");
    Assign "z0i" (Add (V "x0i") (Mul (V "a") (V "y0r")));
    Store (AtInc "Out" "index_z") (V "z0i");
    Assign "x1r" (Rd (AtInc "InScale" "index_x"));
    Assign "x1i" (Rd (AtInc "InScale" "index_x"));
    Assign "y1r" (Rd (AtInc "Add" "index_y"));
    Assign "y1i" (Rd (AtInc "Add" "index_y"));
    Assign "z1r" (Sub (V "x1r") (Mul (V "a") (V "y1i")));
    Store (AtInc "Out" "index_z") (V "z1r");
    Assign "z1i" (Add (V "x1i") (Mul (V "a") (V "y1r")));
    Store (AtInc "Out" "index_z") (V "z1i");
    Assign "x2r" (Rd (AtInc "InScale" "index_x"));
    Assign "x2i" (Rd (AtInc "InScale" "index_x"));
    Assign "y2r" (Rd (AtInc "Add" "index_y"));
    Assign "y2i" (Rd (AtInc "Add" "index_y"));
    Assign "z2r" (Sub (V "x2r") (Mul (V "a") (V "y2i")));
    Store (AtInc "Out" "index_z") (V "z2r");
    Assign "z2i" (Add (V "x2i") (Mul (V "a") (V "y2r")));
    Store (AtInc "Out" "index_z") (V "z2i");
    Assign "x0r" (Rd (AtInc "InScale" "index_x"));
    Assign "x0i" (Rd (AtInc "InScale" "index_x"));
    Assign "y0r" (Rd (AtInc "Add" "index_y"));
    Assign "y0i" (Rd (AtInc "Add" "index_y"));
    Assign "z0r" (Add (V "x0r") (Mul (V "a") (V "y0i")));
    Store (AtInc "Out" "index_z") (V "z0r");
    Assign "z0i" (Sub (V "x0i") (Mul (V "a") (V "y0r")));
    Store (AtInc "Out" "index_z") (V "z0i");
    Assign "x1r" (Rd (AtInc "InScale" "index_x"));
    Assign "x1i" (Rd (AtInc "InScale" "index_x"));
    Assign "y1r" (Rd (AtInc "Add" "index_y"));
    Assign "y1i" (Rd (AtInc "Add" "index_y"));
    Assign "z1r" (Add (V "x1r") (Mul (V "a") (V "y1i")));
    Store (AtInc "Out" "index_z") (V "z1r");
    Assign "z1i" (Sub (V "x1i") (Mul (V "a") (V "y1r")));
    Store (AtInc "Out" "index_z") (V "z1i");
    Assign "x2r" (Rd (AtInc "InScale" "index_x"));
    Assign "x2i" (Rd (AtInc "InScale" "index_x"));
    Assign "y2r" (Rd (AtInc "Add" "index_y"));
    Assign "y2i" (Rd (AtInc "Add" "index_y"));
    Assign "z2r" (Add (V "x2r") (Mul (V "a") (V "y2i")));
    Store (AtInc "Out" "index_z") (V "z2r");
    Assign "z2i" (Sub (V "x2i") (Mul (V "a") (V "y2r")));
    Store (AtInc "Out" "index_z") (V "z2i");
    Assign "x0r" (Rd (AtInc "InScale" "index_x"));
    Assign "x0i" (Rd (AtInc "InScale" "index_x"));
    Assign "y0r" (Rd (AtInc "Add" "index_y"));
    Assign "y0i" (Rd (AtInc "Add" "index_y"));
    Assign "z0r" (Add (V "x0r") (Mul (V "a") (V "y0i")));
    Store (AtInc "Out" "index_z") (V "z0r");
    Assign "z0i" (Sub (V "x0i") (Mul (V "a") (V "y0r")));
    Store (AtInc "Out" "index_z") (V "z0i");
    Assign "x1r" (Rd (AtInc "InScale" "index_x"));
    Assign "x1i" (Rd (AtInc "InScale" "index_x"));
    Assign "y1r" (Rd (AtInc "Add" "index_y"));
    Assign "y1i" (Rd (AtInc "Add" "index_y"));
    Assign "z1r" (Add (V "x1r") (Mul (V "a") (V "y1i")));
    Store (AtInc "Out" "index_z") (V "z1r");
    Assign "z1i" (Sub (V "x1i") (Mul (V "a") (V "y1r")));
    Store (AtInc "Out" "index_z") (V "z1i");
    Assign "x2r" (Rd (AtInc "InScale" "index_x"));
    Assign "x2i" (Rd (AtInc "InScale" "index_x"));
    Assign "y2r" (Rd (AtInc "Add" "index_y"));
    Assign "y2i" (Rd (AtInc "Add" "index_y"));
    Assign "z2r" (Add (V "x2r") (Mul (V "a") (V "y2i")));
    Store (AtInc "Out" "index_z") (V "z2r");
    Assign "z2i" (Sub (V "x2i") (Mul (V "a") (V "y2r")));
    Store (AtInc "Out" "index_z") (V "z2i")])].

(** [xmayz_ig5], generic_blas_g5.h 1271-1437. *)
Definition xmayz_ig5 : stmt := seq [
  Assign "a" (Rd (At "scalep" (IC 0)));
  Int "index_x" (IC 0);
  Int "index_y" (IC 0);
  Int "index_z" (IC 0);
  For "counter" (IC 0) (IV "n_4vec") 1 (seq [
    Assign "x0r" (Rd (AtInc "InScale" "index_x"));
    Assign "x0i" (Rd (AtInc "InScale" "index_x"));
    Assign "y0r" (Rd (AtInc "Add" "index_y"));
    Assign "y0i" (Rd (AtInc "Add" "index_y"));
    Assign "z0r" (Add (V "x0r") (Mul (V "a") (V "y0i")));
    Store (AtInc "Out" "index_z") (V "z0r");
    Assign "z0i" (Sub (V "x0i") (Mul (V "a") (V "y0r")));
    Store (AtInc "Out" "index_z") (V "z0i");
    Assign "x1r" (Rd (AtInc "InScale" "index_x"));
    Assign "x1i" (Rd (AtInc "InScale" "index_x"));
    Assign "y1r" (Rd (AtInc "Add" "index_y"));
    Assign "y1i" (Rd (AtInc "Add" "index_y"));
    Assign "z1r" (Add (V "x1r") (Mul (V "a") (V "y1i")));
    Store (AtInc "Out" "index_z") (V "z1r");
    Assign "z1i" (Sub (V "x1i") (Mul (V "a") (V "y1r")));
    Store (AtInc "Out" "index_z") (V "z1i");
    Assign "x2r" (Rd (AtInc "InScale" "index_x"));
    Assign "x2i" (Rd (AtInc "InScale" "index_x"));
    Assign "y2r" (Rd (AtInc "Add" "index_y"));
    Assign "y2i" (Rd (AtInc "Add" "index_y"));
    Assign "z2r" (Add (V "x2r") (Mul (V "a") (V "y2i")));
    Store (AtInc "Out" "index_z") (V "z2r");
    Assign "z2i" (Sub (V "x2i") (Mul (V "a") (V "y2r")));
    Store (AtInc "Out" "index_z") (V "z2i");
    Assign "x0r" (Rd (AtInc "InScale" "index_x"));
    Assign "x0i" (Rd (AtInc "InScale" "index_x"));
    Assign "y0r" (Rd (AtInc "Add" "index_y"));
    Assign "y0i" (Rd (AtInc "Add" "index_y"));
    Assign "z0r" (Add (V "x0r") (Mul (V "a") (V "y0i")));
    Store (AtInc "Out" "index_z") (V "z0r");
    Assign "z0i" (Sub (V "x0i") (Mul (V "a") (V "y0r")));
    Store (AtInc "Out" "index_z") (V "z0i");
    Assign "x1r" (Rd (AtInc "InScale" "index_x"));
    Assign "x1i" (Rd (AtInc "InScale" "index_x"));
    Assign "y1r" (Rd (AtInc "Add" "index_y"));
    Assign "y1i" (Rd (AtInc "Add" "index_y"));
    Assign "z1r" (Add (V "x1r") (Mul (V "a") (V "y1i")));
    Store (AtInc "Out" "index_z") (V "z1r");
    Assign "z1i" (Sub (V "x1i") (Mul (V "a") (V "y1r")));
    Store (AtInc "Out" "index_z") (V "z1i");
    Assign "x2r" (Rd (AtInc "InScale" "index_x"));
    Assign "x2i" (Rd (AtInc "InScale" "index_x"));
    Assign "y2r" (Rd (AtInc "Add" "index_y"));
    Assign "y2i" (Rd (AtInc "Add" "index_y"));
    Assign "z2r" (Add (V "x2r") (Mul (V "a") (V "y2i")));
    Store (AtInc "Out" "index_z") (V "z2r");
    Assign "z2i" (Sub (V "x2i") (Mul (V "a") (V "y2r")));
    Store (AtInc "Out" "index_z") (V "z2i");
    Assign "x0r" (Rd (AtInc "InScale" "index_x"));
    Assign "x0i" (Rd (AtInc "InScale" "index_x"));
    Assign "y0r" (Rd (AtInc "Add" "index_y"));
    Assign "y0i" (Rd (AtInc "Add" "index_y"));
    Assign "z0r" (Sub (V "x0r") (Mul (V "a") (V "y0i")));
    Store (AtInc "Out" "index_z") (V "z0r");
    Assign "z0i" (Add (V "x0i") (Mul (V "a") (V "y0r")));
    Store (AtInc "Out" "index_z") (V "z0i");
    Assign "x1r" (Rd (AtInc "InScale" "index_x"));
    Assign "x1i" (Rd (AtInc "InScale" "index_x"));
    Assign "y1r" (Rd (AtInc "Add" "index_y"));
    Assign "y1i" (Rd (AtInc "Add" "index_y"));
    Assign "z1r" (Sub (V "x1r") (Mul (V "a") (V "y1i")));
    Store (AtInc "Out" "index_z") (V "z1r");
    Assign "z1i" (Add (V "x1i") (Mul (V "a") (V "y1r")));
    Store (AtInc "Out" "index_z") (V "z1i");
    Assign "x2r" (Rd (AtInc "InScale" "index_x"));
    Assign "x2i" (Rd (AtInc "InScale" "index_x"));
    Assign "y2r" (Rd (AtInc "Add" "index_y"));
    Assign "y2i" (Rd (AtInc "Add" "index_y"));
    Assign "z2r" (Sub (V "x2r") (Mul (V "a") (V "y2i")));
    Store (AtInc "Out" "index_z") (V "z2r");
    Assign "z2i" (Add (V "x2i") (Mul (V "a") (V "y2r")));
    Store (AtInc "Out" "index_z") (V "z2i");
    Assign "x0r" (Rd (AtInc "InScale" "index_x"));
    Assign "x0i" (Rd (AtInc "InScale" "index_x"));
    Assign "y0r" (Rd (AtInc "Add" "index_y"));
    Assign "y0i" (Rd (AtInc "Add" "index_y"));
    Assign "z0r" (Sub (V "x0r") (Mul (V "a") (V "y0i")));
    Store (AtInc "Out" "index_z") (V "z0r");
    Assign "z0i" (Add (V "x0i") (Mul (V "a") (V "y0r")));
    Store (AtInc "Out" "index_z") (V "z0i");
    Assign "x1r" (Rd (AtInc "InScale" "index_x"));
    Assign "x1i" (Rd (AtInc "InScale" "index_x"));
    Assign "y1r" (Rd (AtInc "Add" "index_y"));
    Assign "y1i" (Rd (AtInc "Add" "index_y"));
    Assign "z1r" (Sub (V "x1r") (Mul (V "a") (V "y1i")));
    Store (AtInc "Out" "index_z") (V "z1r");
    Assign "z1i" (Add (V "x1i") (Mul (V "a") (V "y1r")));
    Store (AtInc "Out" "index_z") (V "z1i");
    Assign "x2r" (Rd (AtInc "InScale" "index_x"));
    Assign "x2i" (Rd (AtInc "InScale" "index_x"));
    Assign "y2r" (Rd (AtInc "Add" "index_y"));
    Assign "y2i" (Rd (AtInc "Add" "index_y"));
    Assign "z2r" (Sub (V "x2r") (Mul (V "a") (V "y2i")));
    Store (AtInc "Out" "index_z") (V "z2r");
    Assign "z2i" (Add (V "x2i") (Mul (V "a") (V "y2r")));
    Store (AtInc "Out" "index_z") (V "z2i")])].


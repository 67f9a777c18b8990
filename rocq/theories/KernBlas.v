(** The vector kernels, transcribed into the language of KernLang.v by
    a script: one statement per C statement, in the order of the source; declarations without a
    value are dropped; a local array a[4][3][2] is one run of 24 cells, a[i][j][k] being cell
    (i*3+j)*2+k; Ns = 4, Nc = 3.  All files are in include/scalarsite_generic/. *)
From Coq Require Import ZArith List String.
From Verif Require Import KernLang.
Import ListNotations.
Local Open Scope Z_scope.
Local Open Scope list_scope.
Local Open Scope string_scope.

(** [vaxpy3], generic_blas_vaxpy3.h 14-100. *)
Definition vaxpy3 : stmt := seq [
  Assign "a" (Rd (At "scalep" (IC 0)));
  Int "len" (IMul (IV "n_4vec") (IC 24));
  For "i" (IC 0) (IV "len") 1 (seq [
    Store (At "Out" (IV "i")) (Add (Mul (V "a") (Rd (At "InScale" (IV "i")))) (Rd (At "Add" (IV "i"))))])].

(** [vaxmy3], generic_blas_vaxmy3.h 15-96. *)
Definition vaxmy3 : stmt := seq [
  Assign "a" (Rd (At "scalep" (IC 0)));
  Int "len" (IMul (IV "n_3vec") (IC 24));
  For "i" (IC 0) (IV "len") 1 (seq [
    Store (At "Out" (IV "i")) (Sub (Mul (V "a") (Rd (At "InScale" (IV "i")))) (Rd (At "Sub" (IV "i"))))])].

(** [vaxpby3], generic_blas_vaxpby3.h 15-103. *)
Definition vaxpby3 : stmt := seq [
  Assign "a" (Rd (At "ap" (IC 0)));
  Assign "b" (Rd (At "bp" (IC 0)));
  Int "len" (IMul (IC 24) (IV "n_3vec"));
  For "i" (IC 0) (IV "len") 1 (seq [
    Store (At "Out" (IV "i")) (Add (Mul (V "a") (Rd (At "xp" (IV "i")))) (Mul (V "b") (Rd (At "yp" (IV "i")))))])].

(** [vaxmby3], generic_blas_vaxmby3.h 14-103. *)
Definition vaxmby3 : stmt := seq [
  Assign "a" (Rd (At "ap" (IC 0)));
  Assign "b" (Rd (At "bp" (IC 0)));
  Int "len" (IMul (IC 24) (IV "n_3vec"));
  For "i" (IC 0) (IV "len") 1 (seq [
    Store (At "Out" (IV "i")) (Sub (Mul (V "a") (Rd (At "xp" (IV "i")))) (Mul (V "b") (Rd (At "yp" (IV "i")))))])].

(** [vscal], generic_blas_vscal.h 15-99. *)
Definition vscal : stmt := seq [
  Assign "a" (Rd (At "scalep" (IC 0)));
  Int "len" (IMul (IC 24) (IV "n_3vec"));
  For "i" (IC 0) (IV "len") 1 (seq [
    Store (At "Out" (IV "i")) (Mul (V "a") (Rd (At "In" (IV "i"))))])].

(** [vadd], generic_blas_vadd.h 15-113. *)
Definition vadd : stmt := seq [
  Int "len" (IMul (IV "n_3vec") (IC 24));
  For "i" (IC 0) (IV "len") 1 (seq [
    Store (At "Out" (IV "i")) (Add (Rd (At "In1" (IV "i"))) (Rd (At "In2" (IV "i"))))])].

(** [vsub], generic_blas_vsub.h 15-113. *)
Definition vsub : stmt := seq [
  For "i" (IC 0) (IMul (IC 24) (IV "n_3vec")) 1 (seq [
    Store (At "Out" (IV "i")) (Sub (Rd (At "In1" (IV "i"))) (Rd (At "In2" (IV "i"))))])].

(** [vaxpy3_norm], generic_blas_vaxpy3_norm.h 14-93. *)
Definition vaxpy3_norm : stmt := seq [
  Assign "norm_out" Zero;
  Assign "a" (Rd (At "scalep" (IC 0)));
  Int "index_x" (IC 0);
  Int "index_y" (IC 0);
  Int "index_z" (IC 0);
  For "counter" (IC 0) (IV "n_3vec") 1 (seq [
    Assign "x0r" (Rd (AtInc "InScale" "index_x"));
    Assign "y0r" (Rd (AtInc "Add" "index_y"));
    Assign "z0r" (Add (Mul (V "a") (V "x0r")) (V "y0r"));
    Assign "norm_out" (Add (V "norm_out") (Mul (V "z0r") (V "z0r")));
    Store (AtInc "Out" "index_z") (V "z0r");
    Assign "x0i" (Rd (AtInc "InScale" "index_x"));
    Assign "y0i" (Rd (AtInc "Add" "index_y"));
    Assign "z0i" (Add (Mul (V "a") (V "x0i")) (V "y0i"));
    Assign "norm_out" (Add (V "norm_out") (Mul (V "z0i") (V "z0i")));
    Store (AtInc "Out" "index_z") (V "z0i");
    Assign "x1r" (Rd (AtInc "InScale" "index_x"));
    Assign "y1r" (Rd (AtInc "Add" "index_y"));
    Assign "z1r" (Add (Mul (V "a") (V "x1r")) (V "y1r"));
    Assign "norm_out" (Add (V "norm_out") (Mul (V "z1r") (V "z1r")));
    Store (AtInc "Out" "index_z") (V "z1r");
    Assign "x1i" (Rd (AtInc "InScale" "index_x"));
    Assign "y1i" (Rd (AtInc "Add" "index_y"));
    Assign "z1i" (Add (Mul (V "a") (V "x1i")) (V "y1i"));
    Assign "norm_out" (Add (V "norm_out") (Mul (V "z1i") (V "z1i")));
    Store (AtInc "Out" "index_z") (V "z1i");
    Assign "x2r" (Rd (AtInc "InScale" "index_x"));
    Assign "y2r" (Rd (AtInc "Add" "index_y"));
    Assign "z2r" (Add (Mul (V "a") (V "x2r")) (V "y2r"));
    Assign "norm_out" (Add (V "norm_out") (Mul (V "z2r") (V "z2r")));
    Store (AtInc "Out" "index_z") (V "z2r");
    Assign "x2i" (Rd (AtInc "InScale" "index_x"));
    Assign "y2i" (Rd (AtInc "Add" "index_y"));
    Assign "z2i" (Add (Mul (V "a") (V "x2i")) (V "y2i"));
    Assign "norm_out" (Add (V "norm_out") (Mul (V "z2i") (V "z2i")));
    Store (AtInc "Out" "index_z") (V "z2i")]);
  Store (At "norm" (IC 0)) (V "norm_out")].

(** [vaxmby3_norm], generic_blas_vaxmby3_norm.h 17-102. *)
Definition vaxmby3_norm : stmt := seq [
  Assign "norm_out" Zero;
  Assign "a" (Rd (At "ap" (IC 0)));
  Assign "b" (Rd (At "bp" (IC 0)));
  Int "index_x" (IC 0);
  Int "index_y" (IC 0);
  Int "index_z" (IC 0);
  For "counter" (IC 0) (IV "n_3vec") 1 (seq [
    Assign "x0r" (Rd (AtInc "xp" "index_x"));
    Assign "y0r" (Rd (AtInc "yp" "index_y"));
    Assign "z0r" (Mul (V "a") (V "x0r"));
    Assign "z0r" (Sub (V "z0r") (Mul (V "b") (V "y0r")));
    Store (AtInc "Out" "index_z") (V "z0r");
    Assign "norm_out" (Add (V "norm_out") (Mul (V "z0r") (V "z0r")));
    Assign "x0i" (Rd (AtInc "xp" "index_x"));
    Assign "y0i" (Rd (AtInc "yp" "index_y"));
    Assign "z0i" (Mul (V "a") (V "x0i"));
    Assign "z0i" (Sub (V "z0i") (Mul (V "b") (V "y0i")));
    Store (AtInc "Out" "index_z") (V "z0i");
    Assign "norm_out" (Add (V "norm_out") (Mul (V "z0i") (V "z0i")));
    Assign "x1r" (Rd (AtInc "xp" "index_x"));
    Assign "y1r" (Rd (AtInc "yp" "index_y"));
    Assign "z1r" (Mul (V "a") (V "x1r"));
    Assign "z1r" (Sub (V "z1r") (Mul (V "b") (V "y1r")));
    Store (AtInc "Out" "index_z") (V "z1r");
    Assign "norm_out" (Add (V "norm_out") (Mul (V "z1r") (V "z1r")));
    Assign "x1i" (Rd (AtInc "xp" "index_x"));
    Assign "y1i" (Rd (AtInc "yp" "index_y"));
    Assign "z1i" (Mul (V "a") (V "x1i"));
    Assign "z1i" (Sub (V "z1i") (Mul (V "b") (V "y1i")));
    Store (AtInc "Out" "index_z") (V "z1i");
    Assign "norm_out" (Add (V "norm_out") (Mul (V "z1i") (V "z1i")));
    Assign "x2r" (Rd (AtInc "xp" "index_x"));
    Assign "y2r" (Rd (AtInc "yp" "index_y"));
    Assign "z2r" (Mul (V "a") (V "x2r"));
    Assign "z2r" (Sub (V "z2r") (Mul (V "b") (V "y2r")));
    Store (AtInc "Out" "index_z") (V "z2r");
    Assign "norm_out" (Add (V "norm_out") (Mul (V "z2r") (V "z2r")));
    Assign "x2i" (Rd (AtInc "xp" "index_x"));
    Assign "y2i" (Rd (AtInc "yp" "index_y"));
    Assign "z2i" (Mul (V "a") (V "x2i"));
    Assign "z2i" (Sub (V "z2i") (Mul (V "b") (V "y2i")));
    Store (AtInc "Out" "index_z") (V "z2i");
    Assign "norm_out" (Add (V "norm_out") (Mul (V "z2i") (V "z2i")))]);
  Store (At "norm" (IC 0)) (V "norm_out")].

(** [local_sumsq], generic_blas_local_sumsq.h 16-37. *)
Definition local_sumsq : stmt := seq [
  Int "len" (IMul (IC 24) (IV "n_3vec"));
  Assign "result" Zero;
  IfPos (IV "n_3vec") (seq [
    For "counter" (IC 0) (IV "len") 1 (seq [
      Assign "i1" (Rd (At "In" (IV "counter")));
      Assign "result" (Add (V "result") (Mul (V "i1") (V "i1")))])]);
  Store (At "Out" (IC 0)) (V "result")].

(** [l_vcdot], generic_blas_local_vcdot.h 20-50. *)
Definition l_vcdot : stmt := seq [
  Assign "result_re" Zero;
  Assign "result_im" Zero;
  IfPos (IV "n_3vec") (seq [
    Int "len" (IMul (IC 24) (IV "n_3vec"));
    For "counter" (IC 0) (IV "len") 2 (seq [
      Assign "v1_r" (Rd (At "V1" (IV "counter")));
      Assign "v1_i" (Rd (At "V1" (IAdd (IV "counter") (IC 1))));
      Assign "v2_r" (Rd (At "V2" (IV "counter")));
      Assign "v2_i" (Rd (At "V2" (IAdd (IV "counter") (IC 1))));
      Assign "result_re" (Add (V "result_re") (Add (Mul (V "v1_r") (V "v2_r")) (Mul (V "v1_i") (V "v2_i"))));
      Assign "result_im" (Add (V "result_im") (Sub (Mul (V "v1_r") (V "v2_i")) (Mul (V "v1_i") (V "v2_r"))))])]);
  Store (At "Out_re" (IC 0)) (V "result_re");
  Store (At "Out_im" (IC 0)) (V "result_im")].

(** [l_vcdot_real], generic_blas_local_vcdot_real.h 19-49. *)
Definition l_vcdot_real : stmt := seq [
  Assign "result" Zero;
  IfPos (IV "n_3vec") (seq [
    Int "len" (IMul (IC 24) (IV "n_3vec"));
    For "counter" (IC 0) (IV "len") 2 (seq [
      Assign "v1_r" (Rd (At "V1" (IV "counter")));
      Assign "v1_i" (Rd (At "V1" (IAdd (IV "counter") (IC 1))));
      Assign "v2_r" (Rd (At "V2" (IV "counter")));
      Assign "v2_i" (Rd (At "V2" (IAdd (IV "counter") (IC 1))));
      Assign "result" (Add (V "result") (Add (Mul (V "v1_r") (V "v2_r")) (Mul (V "v1_i") (V "v2_i"))))])]);
  Store (At "Out" (IC 0)) (V "result")].

(** [vcscal], generic_blas_vcscal.h 14-97. *)
Definition vcscal : stmt := seq [
  Assign "a_r" (Rd (At "scalep" (IC 0)));
  Assign "a_i" (Rd (At "scalep" (IC 1)));
  Int "counter" (IC 0);
  Int "inptr" (IC 0);
  Int "outptr" (IC 0);
  IfPos (IV "n_3vec") (seq [
    Assign "i0r" (Rd (AtInc "In" "inptr"));
    Assign "i0i" (Rd (AtInc "In" "inptr"));
    Assign "i1r" (Rd (AtInc "In" "inptr"));
    Assign "i1i" (Rd (AtInc "In" "inptr"));
    Assign "i2r" (Rd (AtInc "In" "inptr"));
    Assign "i2i" (Rd (AtInc "In" "inptr"));
    Int "len" (IMul (IC 4) (IV "n_3vec"));
    For "counter" (IC 0) (ISub (IV "len") (IC 1)) 1 (seq [
      Assign "o0r" (Mul (V "a_r") (V "i0r"));
      Assign "o0i" (Mul (V "a_i") (V "i0r"));
      Assign "i0r" (Rd (AtInc "In" "inptr"));
      Assign "o0r" (Sub (V "o0r") (Mul (V "a_i") (V "i0i")));
      Store (AtInc "Out" "outptr") (V "o0r");
      Assign "o0i" (Add (V "o0i") (Mul (V "a_r") (V "i0i")));
      Store (AtInc "Out" "outptr") (V "o0i");
      Assign "i0i" (Rd (AtInc "In" "inptr"));
      Assign "o1r" (Mul (V "a_r") (V "i1r"));
      Assign "o1i" (Mul (V "a_i") (V "i1r"));
      Assign "i1r" (Rd (AtInc "In" "inptr"));
      Assign "o1r" (Sub (V "o1r") (Mul (V "a_i") (V "i1i")));
      Store (AtInc "Out" "outptr") (V "o1r");
      Assign "o1i" (Add (V "o1i") (Mul (V "a_r") (V "i1i")));
      Store (AtInc "Out" "outptr") (V "o1i");
      Assign "i1i" (Rd (AtInc "In" "inptr"));
      Assign "o2r" (Mul (V "a_r") (V "i2r"));
      Assign "o2i" (Mul (V "a_i") (V "i2r"));
      Assign "i2r" (Rd (AtInc "In" "inptr"));
      Assign "o2r" (Sub (V "o2r") (Mul (V "a_i") (V "i2i")));
      Store (AtInc "Out" "outptr") (V "o2r");
      Assign "o2i" (Add (V "o2i") (Mul (V "a_r") (V "i2i")));
      Store (AtInc "Out" "outptr") (V "o2i");
      Assign "i2i" (Rd (AtInc "In" "inptr"))]);
    Assign "o0r" (Mul (V "a_r") (V "i0r"));
    Assign "o0i" (Mul (V "a_i") (V "i0r"));
    Assign "o0r" (Sub (V "o0r") (Mul (V "a_i") (V "i0i")));
    Store (AtInc "Out" "outptr") (V "o0r");
    Assign "o0i" (Add (V "o0i") (Mul (V "a_r") (V "i0i")));
    Store (AtInc "Out" "outptr") (V "o0i");
    Assign "o1r" (Mul (V "a_r") (V "i1r"));
    Assign "o1i" (Mul (V "a_i") (V "i1r"));
    Assign "o1r" (Sub (V "o1r") (Mul (V "a_i") (V "i1i")));
    Store (AtInc "Out" "outptr") (V "o1r");
    Assign "o1i" (Add (V "o1i") (Mul (V "a_r") (V "i1i")));
    Store (AtInc "Out" "outptr") (V "o1i");
    Assign "o2r" (Mul (V "a_r") (V "i2r"));
    Assign "o2i" (Mul (V "a_i") (V "i2r"));
    Assign "o2r" (Sub (V "o2r") (Mul (V "a_i") (V "i2i")));
    Store (AtInc "Out" "outptr") (V "o2r");
    Assign "o2i" (Add (V "o2i") (Mul (V "a_r") (V "i2i")));
    Store (AtInc "Out" "outptr") (V "o2i")])].

(** [vcaxpy3], generic_blas_vcaxpy3.h 14-135. *)
Definition vcaxpy3 : stmt := seq [
  Assign "a_r" (Rd (At "scalep" (IC 0)));
  Assign "a_i" (Rd (At "scalep" (IC 1)));
  Int "index_x" (IC 0);
  Int "index_y" (IC 0);
  Int "index_z" (IC 0);
  IfPos (IV "n_3vec") (seq [
    Int "len" (IMul (IV "n_3vec") (IC 4));
    Assign "x0r" (Rd (AtInc "InScale" "index_x"));
    Assign "x0i" (Rd (AtInc "InScale" "index_x"));
    Assign "y0r" (Rd (AtInc "Add" "index_y"));
    Assign "y0i" (Rd (AtInc "Add" "index_y"));
    Assign "x1r" (Rd (AtInc "InScale" "index_x"));
    Assign "x1i" (Rd (AtInc "InScale" "index_x"));
    Assign "y1r" (Rd (AtInc "Add" "index_y"));
    Assign "y1i" (Rd (AtInc "Add" "index_y"));
    Assign "x2r" (Rd (AtInc "InScale" "index_x"));
    Assign "x2i" (Rd (AtInc "InScale" "index_x"));
    Assign "y2r" (Rd (AtInc "Add" "index_y"));
    For "counter" (IC 0) (ISub (IV "len") (IC 1)) 1 (seq [
      Assign "y2i" (Rd (AtInc "Add" "index_y"));
      Assign "z0r" (Add (Mul (V "a_r") (V "x0r")) (V "y0r"));
      Assign "z0i" (Add (Mul (V "a_i") (V "x0r")) (V "y0i"));
      Assign "x0r" (Rd (AtInc "InScale" "index_x"));
      Assign "y0r" (Rd (AtInc "Add" "index_y"));
      Assign "z0r" (Sub (V "z0r") (Mul (V "a_i") (V "x0i")));
      Store (AtInc "Out" "index_z") (V "z0r");
      Assign "z0i" (Add (V "z0i") (Mul (V "a_r") (V "x0i")));
      Store (AtInc "Out" "index_z") (V "z0i");
      Assign "x0i" (Rd (AtInc "InScale" "index_x"));
      Assign "z1r" (Add (Mul (V "a_r") (V "x1r")) (V "y1r"));
      Assign "y0i" (Rd (AtInc "Add" "index_y"));
      Assign "z1i" (Add (Mul (V "a_i") (V "x1r")) (V "y1i"));
      Assign "x1r" (Rd (AtInc "InScale" "index_x"));
      Assign "y1r" (Rd (AtInc "Add" "index_y"));
      Assign "z1r" (Sub (V "z1r") (Mul (V "a_i") (V "x1i")));
      Store (AtInc "Out" "index_z") (V "z1r");
      Assign "z1i" (Add (V "z1i") (Mul (V "a_r") (V "x1i")));
      Store (AtInc "Out" "index_z") (V "z1i");
      Assign "x1i" (Rd (AtInc "InScale" "index_x"));
      Assign "z2r" (Add (Mul (V "a_r") (V "x2r")) (V "y2r"));
      Assign "y1i" (Rd (AtInc "Add" "index_y"));
      Assign "z2i" (Add (Mul (V "a_i") (V "x2r")) (V "y2i"));
      Assign "x2r" (Rd (AtInc "InScale" "index_x"));
      Assign "y2r" (Rd (AtInc "Add" "index_y"));
      Assign "z2r" (Sub (V "z2r") (Mul (V "a_i") (V "x2i")));
      Store (AtInc "Out" "index_z") (V "z2r");
      Assign "z2i" (Add (V "z2i") (Mul (V "a_r") (V "x2i")));
      Store (AtInc "Out" "index_z") (V "z2i");
      Assign "x2i" (Rd (AtInc "InScale" "index_x"))]);
    Assign "y2i" (Rd (AtInc "Add" "index_y"));
    Assign "z0r" (Add (Mul (V "a_r") (V "x0r")) (V "y0r"));
    Assign "z0i" (Add (Mul (V "a_i") (V "x0r")) (V "y0i"));
    Assign "z0r" (Sub (V "z0r") (Mul (V "a_i") (V "x0i")));
    Store (AtInc "Out" "index_z") (V "z0r");
    Assign "z0i" (Add (V "z0i") (Mul (V "a_r") (V "x0i")));
    Store (AtInc "Out" "index_z") (V "z0i");
    Assign "z1r" (Add (Mul (V "a_r") (V "x1r")) (V "y1r"));
    Assign "z1i" (Add (Mul (V "a_i") (V "x1r")) (V "y1i"));
    Assign "z1r" (Sub (V "z1r") (Mul (V "a_i") (V "x1i")));
    Store (AtInc "Out" "index_z") (V "z1r");
    Assign "z1i" (Add (V "z1i") (Mul (V "a_r") (V "x1i")));
    Store (AtInc "Out" "index_z") (V "z1i");
    Assign "z2r" (Add (Mul (V "a_r") (V "x2r")) (V "y2r"));
    Assign "z2i" (Add (Mul (V "a_i") (V "x2r")) (V "y2i"));
    Assign "z2r" (Sub (V "z2r") (Mul (V "a_i") (V "x2i")));
    Store (AtInc "Out" "index_z") (V "z2r");
    Assign "z2i" (Add (V "z2i") (Mul (V "a_r") (V "x2i")));
    Store (AtInc "Out" "index_z") (V "z2i")])].

(** [vcaxmy3], generic_blas_vcaxmy3.h 14-134. *)
Definition vcaxmy3 : stmt := seq [
  Assign "a_r" (Rd (At "scalep" (IC 0)));
  Assign "a_i" (Rd (At "scalep" (IC 1)));
  Int "index_x" (IC 0);
  Int "index_y" (IC 0);
  Int "index_z" (IC 0);
  IfPos (IV "n_3vec") (seq [
    Int "len" (IMul (IV "n_3vec") (IC 4));
    Assign "x0r" (Rd (AtInc "InScale" "index_x"));
    Assign "x0i" (Rd (AtInc "InScale" "index_x"));
    Assign "y0r" (Rd (AtInc "Add" "index_y"));
    Assign "y0i" (Rd (AtInc "Add" "index_y"));
    Assign "x1r" (Rd (AtInc "InScale" "index_x"));
    Assign "x1i" (Rd (AtInc "InScale" "index_x"));
    Assign "y1r" (Rd (AtInc "Add" "index_y"));
    Assign "y1i" (Rd (AtInc "Add" "index_y"));
    Assign "x2r" (Rd (AtInc "InScale" "index_x"));
    Assign "x2i" (Rd (AtInc "InScale" "index_x"));
    Assign "y2r" (Rd (AtInc "Add" "index_y"));
    For "counter" (IC 0) (ISub (IV "len") (IC 1)) 1 (seq [
      Assign "y2i" (Rd (AtInc "Add" "index_y"));
      Assign "z0r" (Sub (Mul (V "a_r") (V "x0r")) (V "y0r"));
      Assign "z0i" (Sub (Mul (V "a_i") (V "x0r")) (V "y0i"));
      Assign "x0r" (Rd (AtInc "InScale" "index_x"));
      Assign "y0r" (Rd (AtInc "Add" "index_y"));
      Assign "z0r" (Sub (V "z0r") (Mul (V "a_i") (V "x0i")));
      Store (AtInc "Out" "index_z") (V "z0r");
      Assign "z0i" (Add (V "z0i") (Mul (V "a_r") (V "x0i")));
      Store (AtInc "Out" "index_z") (V "z0i");
      Assign "x0i" (Rd (AtInc "InScale" "index_x"));
      Assign "z1r" (Sub (Mul (V "a_r") (V "x1r")) (V "y1r"));
      Assign "y0i" (Rd (AtInc "Add" "index_y"));
      Assign "z1i" (Sub (Mul (V "a_i") (V "x1r")) (V "y1i"));
      Assign "x1r" (Rd (AtInc "InScale" "index_x"));
      Assign "y1r" (Rd (AtInc "Add" "index_y"));
      Assign "z1r" (Sub (V "z1r") (Mul (V "a_i") (V "x1i")));
      Store (AtInc "Out" "index_z") (V "z1r");
      Assign "z1i" (Add (V "z1i") (Mul (V "a_r") (V "x1i")));
      Store (AtInc "Out" "index_z") (V "z1i");
      Assign "x1i" (Rd (AtInc "InScale" "index_x"));
      Assign "z2r" (Sub (Mul (V "a_r") (V "x2r")) (V "y2r"));
      Assign "y1i" (Rd (AtInc "Add" "index_y"));
      Assign "z2i" (Sub (Mul (V "a_i") (V "x2r")) (V "y2i"));
      Assign "x2r" (Rd (AtInc "InScale" "index_x"));
      Assign "y2r" (Rd (AtInc "Add" "index_y"));
      Assign "z2r" (Sub (V "z2r") (Mul (V "a_i") (V "x2i")));
      Store (AtInc "Out" "index_z") (V "z2r");
      Assign "z2i" (Add (V "z2i") (Mul (V "a_r") (V "x2i")));
      Store (AtInc "Out" "index_z") (V "z2i");
      Assign "x2i" (Rd (AtInc "InScale" "index_x"))]);
    Assign "y2i" (Rd (AtInc "Add" "index_y"));
    Assign "z0r" (Sub (Mul (V "a_r") (V "x0r")) (V "y0r"));
    Assign "z0i" (Sub (Mul (V "a_i") (V "x0r")) (V "y0i"));
    Assign "z0r" (Sub (V "z0r") (Mul (V "a_i") (V "x0i")));
    Store (AtInc "Out" "index_z") (V "z0r");
    Assign "z0i" (Add (V "z0i") (Mul (V "a_r") (V "x0i")));
    Store (AtInc "Out" "index_z") (V "z0i");
    Assign "z1r" (Sub (Mul (V "a_r") (V "x1r")) (V "y1r"));
    Assign "z1i" (Sub (Mul (V "a_i") (V "x1r")) (V "y1i"));
    Assign "z1r" (Sub (V "z1r") (Mul (V "a_i") (V "x1i")));
    Store (AtInc "Out" "index_z") (V "z1r");
    Assign "z1i" (Add (V "z1i") (Mul (V "a_r") (V "x1i")));
    Store (AtInc "Out" "index_z") (V "z1i");
    Assign "z2r" (Sub (Mul (V "a_r") (V "x2r")) (V "y2r"));
    Assign "z2i" (Sub (Mul (V "a_i") (V "x2r")) (V "y2i"));
    Assign "z2r" (Sub (V "z2r") (Mul (V "a_i") (V "x2i")));
    Store (AtInc "Out" "index_z") (V "z2r");
    Assign "z2i" (Add (V "z2i") (Mul (V "a_r") (V "x2i")));
    Store (AtInc "Out" "index_z") (V "z2i")])].

(** [vcaxpby3], generic_blas_vcaxpby3.h 6-157. *)
Definition vcaxpby3 : stmt := seq [
  Assign "a_r" (Rd (At "ap" (IC 0)));
  Assign "a_i" (Rd (At "ap" (IC 1)));
  Assign "b_r" (Rd (At "bp" (IC 0)));
  Assign "b_i" (Rd (At "bp" (IC 1)));
  Int "index_x" (IC 0);
  Int "index_y" (IC 0);
  Int "index_z" (IC 0);
  IfPos (IV "n_3vec") (seq [
    Assign "x0r" (Rd (AtInc "xp" "index_x"));
    Assign "x0i" (Rd (AtInc "xp" "index_x"));
    Assign "y0r" (Rd (AtInc "yp" "index_y"));
    Assign "y0i" (Rd (AtInc "yp" "index_y"));
    Assign "x1r" (Rd (AtInc "xp" "index_x"));
    Assign "x1i" (Rd (AtInc "xp" "index_x"));
    Assign "y1r" (Rd (AtInc "yp" "index_y"));
    Assign "y1i" (Rd (AtInc "yp" "index_y"));
    Assign "x2r" (Rd (AtInc "xp" "index_x"));
    Assign "x2i" (Rd (AtInc "xp" "index_x"));
    Assign "y2r" (Rd (AtInc "yp" "index_y"));
    Assign "y2i" (Rd (AtInc "yp" "index_y"));
    Int "len" (IMul (IC 4) (IV "n_3vec"));
    For "counter" (IC 0) (ISub (IV "len") (IC 1)) 1 (seq [
      Assign "z0r" (Mul (V "a_r") (V "x0r"));
      Assign "z0i" (Mul (V "a_i") (V "x0r"));
      Assign "x0r" (Rd (AtInc "xp" "index_x"));
      Assign "z0r" (Add (V "z0r") (Mul (V "b_r") (V "y0r")));
      Assign "z0i" (Add (V "z0i") (Mul (V "b_i") (V "y0r")));
      Assign "y0r" (Rd (AtInc "yp" "index_y"));
      Assign "z0r" (Sub (V "z0r") (Mul (V "a_i") (V "x0i")));
      Assign "z0i" (Add (V "z0i") (Mul (V "a_r") (V "x0i")));
      Assign "x0i" (Rd (AtInc "xp" "index_x"));
      Assign "z0r" (Sub (V "z0r") (Mul (V "b_i") (V "y0i")));
      Assign "z0i" (Add (V "z0i") (Mul (V "b_r") (V "y0i")));
      Assign "y0i" (Rd (AtInc "yp" "index_y"));
      Store (AtInc "Out" "index_z") (V "z0r");
      Store (AtInc "Out" "index_z") (V "z0i");
      Assign "z1r" (Mul (V "a_r") (V "x1r"));
      Assign "z1i" (Mul (V "a_i") (V "x1r"));
      Assign "x1r" (Rd (AtInc "xp" "index_x"));
      Assign "z1r" (Add (V "z1r") (Mul (V "b_r") (V "y1r")));
      Assign "z1i" (Add (V "z1i") (Mul (V "b_i") (V "y1r")));
      Assign "y1r" (Rd (AtInc "yp" "index_y"));
      Assign "z1r" (Sub (V "z1r") (Mul (V "a_i") (V "x1i")));
      Assign "z1i" (Add (V "z1i") (Mul (V "a_r") (V "x1i")));
      Assign "x1i" (Rd (AtInc "xp" "index_x"));
      Assign "z1r" (Sub (V "z1r") (Mul (V "b_i") (V "y1i")));
      Assign "z1i" (Add (V "z1i") (Mul (V "b_r") (V "y1i")));
      Assign "y1i" (Rd (AtInc "yp" "index_y"));
      Store (AtInc "Out" "index_z") (V "z1r");
      Store (AtInc "Out" "index_z") (V "z1i");
      Assign "z2r" (Mul (V "a_r") (V "x2r"));
      Assign "z2i" (Mul (V "a_i") (V "x2r"));
      Assign "x2r" (Rd (AtInc "xp" "index_x"));
      Assign "z2r" (Add (V "z2r") (Mul (V "b_r") (V "y2r")));
      Assign "z2i" (Add (V "z2i") (Mul (V "b_i") (V "y2r")));
      Assign "y2r" (Rd (AtInc "yp" "index_y"));
      Assign "z2r" (Sub (V "z2r") (Mul (V "a_i") (V "x2i")));
      Assign "z2i" (Add (V "z2i") (Mul (V "a_r") (V "x2i")));
      Assign "x2i" (Rd (AtInc "xp" "index_x"));
      Assign "z2r" (Sub (V "z2r") (Mul (V "b_i") (V "y2i")));
      Assign "z2i" (Add (V "z2i") (Mul (V "b_r") (V "y2i")));
      Assign "y2i" (Rd (AtInc "yp" "index_y"));
      Store (AtInc "Out" "index_z") (V "z2r");
      Store (AtInc "Out" "index_z") (V "z2i")]);
    Assign "z0r" (Mul (V "a_r") (V "x0r"));
    Assign "z0i" (Mul (V "a_i") (V "x0r"));
    Assign "z0r" (Add (V "z0r") (Mul (V "b_r") (V "y0r")));
    Assign "z0i" (Add (V "z0i") (Mul (V "b_i") (V "y0r")));
    Assign "z0r" (Sub (V "z0r") (Mul (V "a_i") (V "x0i")));
    Assign "z0i" (Add (V "z0i") (Mul (V "a_r") (V "x0i")));
    Assign "z0r" (Sub (V "z0r") (Mul (V "b_i") (V "y0i")));
    Store (AtInc "Out" "index_z") (V "z0r");
    Assign "z0i" (Add (V "z0i") (Mul (V "b_r") (V "y0i")));
    Store (AtInc "Out" "index_z") (V "z0i");
    Assign "z1r" (Mul (V "a_r") (V "x1r"));
    Assign "z1i" (Mul (V "a_i") (V "x1r"));
    Assign "z1r" (Add (V "z1r") (Mul (V "b_r") (V "y1r")));
    Assign "z1i" (Add (V "z1i") (Mul (V "b_i") (V "y1r")));
    Assign "z1r" (Sub (V "z1r") (Mul (V "a_i") (V "x1i")));
    Assign "z1i" (Add (V "z1i") (Mul (V "a_r") (V "x1i")));
    Assign "z1r" (Sub (V "z1r") (Mul (V "b_i") (V "y1i")));
    Store (AtInc "Out" "index_z") (V "z1r");
    Assign "z1i" (Add (V "z1i") (Mul (V "b_r") (V "y1i")));
    Store (AtInc "Out" "index_z") (V "z1i");
    Assign "z2r" (Mul (V "a_r") (V "x2r"));
    Assign "z2i" (Mul (V "a_i") (V "x2r"));
    Assign "z2r" (Add (V "z2r") (Mul (V "b_r") (V "y2r")));
    Assign "z2i" (Add (V "z2i") (Mul (V "b_i") (V "y2r")));
    Assign "z2r" (Sub (V "z2r") (Mul (V "a_i") (V "x2i")));
    Assign "z2i" (Add (V "z2i") (Mul (V "a_r") (V "x2i")));
    Assign "z2r" (Sub (V "z2r") (Mul (V "b_i") (V "y2i")));
    Store (AtInc "Out" "index_z") (V "z2r");
    Assign "z2i" (Add (V "z2i") (Mul (V "b_r") (V "y2i")));
    Store (AtInc "Out" "index_z") (V "z2i")])].

(** [vcaxmby3], generic_blas_vcaxmby3.h 14-166. *)
Definition vcaxmby3 : stmt := seq [
  Assign "a_r" (Rd (At "ap" (IC 0)));
  Assign "a_i" (Rd (At "ap" (IC 1)));
  Assign "b_r" (Rd (At "bp" (IC 0)));
  Assign "b_i" (Rd (At "bp" (IC 1)));
  Int "index_x" (IC 0);
  Int "index_y" (IC 0);
  Int "index_z" (IC 0);
  IfPos (IV "n_3vec") (seq [
    Assign "x0r" (Rd (AtInc "xp" "index_x"));
    Assign "x0i" (Rd (AtInc "xp" "index_x"));
    Assign "y0r" (Rd (AtInc "yp" "index_y"));
    Assign "y0i" (Rd (AtInc "yp" "index_y"));
    Assign "x1r" (Rd (AtInc "xp" "index_x"));
    Assign "x1i" (Rd (AtInc "xp" "index_x"));
    Assign "y1r" (Rd (AtInc "yp" "index_y"));
    Assign "y1i" (Rd (AtInc "yp" "index_y"));
    Assign "x2r" (Rd (AtInc "xp" "index_x"));
    Assign "x2i" (Rd (AtInc "xp" "index_x"));
    Assign "y2r" (Rd (AtInc "yp" "index_y"));
    Assign "y2i" (Rd (AtInc "yp" "index_y"));
    Int "len" (IMul (IC 4) (IV "n_3vec"));
    For "counter" (IC 0) (ISub (IV "len") (IC 1)) 1 (seq [
      Assign "z0r" (Mul (V "a_r") (V "x0r"));
      Assign "z0i" (Mul (V "a_i") (V "x0r"));
      Assign "x0r" (Rd (AtInc "xp" "index_x"));
      Assign "z0r" (Sub (V "z0r") (Mul (V "b_r") (V "y0r")));
      Assign "z0i" (Sub (V "z0i") (Mul (V "b_i") (V "y0r")));
      Assign "y0r" (Rd (AtInc "yp" "index_y"));
      Assign "z0r" (Sub (V "z0r") (Mul (V "a_i") (V "x0i")));
      Assign "z0i" (Add (V "z0i") (Mul (V "a_r") (V "x0i")));
      Assign "x0i" (Rd (AtInc "xp" "index_x"));
      Assign "z0r" (Add (V "z0r") (Mul (V "b_i") (V "y0i")));
      Assign "z0i" (Sub (V "z0i") (Mul (V "b_r") (V "y0i")));
      Assign "y0i" (Rd (AtInc "yp" "index_y"));
      Store (AtInc "Out" "index_z") (V "z0r");
      Store (AtInc "Out" "index_z") (V "z0i");
      Assign "z1r" (Mul (V "a_r") (V "x1r"));
      Assign "z1i" (Mul (V "a_i") (V "x1r"));
      Assign "x1r" (Rd (AtInc "xp" "index_x"));
      Assign "z1r" (Sub (V "z1r") (Mul (V "b_r") (V "y1r")));
      Assign "z1i" (Sub (V "z1i") (Mul (V "b_i") (V "y1r")));
      Assign "y1r" (Rd (AtInc "yp" "index_y"));
      Assign "z1r" (Sub (V "z1r") (Mul (V "a_i") (V "x1i")));
      Assign "z1i" (Add (V "z1i") (Mul (V "a_r") (V "x1i")));
      Assign "x1i" (Rd (AtInc "xp" "index_x"));
      Assign "z1r" (Add (V "z1r") (Mul (V "b_i") (V "y1i")));
      Assign "z1i" (Sub (V "z1i") (Mul (V "b_r") (V "y1i")));
      Assign "y1i" (Rd (AtInc "yp" "index_y"));
      Store (AtInc "Out" "index_z") (V "z1r");
      Store (AtInc "Out" "index_z") (V "z1i");
      Assign "z2r" (Mul (V "a_r") (V "x2r"));
      Assign "z2i" (Mul (V "a_i") (V "x2r"));
      Assign "x2r" (Rd (AtInc "xp" "index_x"));
      Assign "z2r" (Sub (V "z2r") (Mul (V "b_r") (V "y2r")));
      Assign "z2i" (Sub (V "z2i") (Mul (V "b_i") (V "y2r")));
      Assign "y2r" (Rd (AtInc "yp" "index_y"));
      Assign "z2r" (Sub (V "z2r") (Mul (V "a_i") (V "x2i")));
      Assign "z2i" (Add (V "z2i") (Mul (V "a_r") (V "x2i")));
      Assign "x2i" (Rd (AtInc "xp" "index_x"));
      Assign "z2r" (Add (V "z2r") (Mul (V "b_i") (V "y2i")));
      Assign "z2i" (Sub (V "z2i") (Mul (V "b_r") (V "y2i")));
      Assign "y2i" (Rd (AtInc "yp" "index_y"));
      Store (AtInc "Out" "index_z") (V "z2r");
      Store (AtInc "Out" "index_z") (V "z2i")]);
    Assign "z0r" (Mul (V "a_r") (V "x0r"));
    Assign "z0i" (Mul (V "a_i") (V "x0r"));
    Assign "z0r" (Sub (V "z0r") (Mul (V "b_r") (V "y0r")));
    Assign "z0i" (Sub (V "z0i") (Mul (V "b_i") (V "y0r")));
    Assign "z0r" (Sub (V "z0r") (Mul (V "a_i") (V "x0i")));
    Assign "z0i" (Add (V "z0i") (Mul (V "a_r") (V "x0i")));
    Assign "z0r" (Add (V "z0r") (Mul (V "b_i") (V "y0i")));
    Store (AtInc "Out" "index_z") (V "z0r");
    Assign "z0i" (Sub (V "z0i") (Mul (V "b_r") (V "y0i")));
    Store (AtInc "Out" "index_z") (V "z0i");
    Assign "z1r" (Mul (V "a_r") (V "x1r"));
    Assign "z1i" (Mul (V "a_i") (V "x1r"));
    Assign "z1r" (Sub (V "z1r") (Mul (V "b_r") (V "y1r")));
    Assign "z1i" (Sub (V "z1i") (Mul (V "b_i") (V "y1r")));
    Assign "z1r" (Sub (V "z1r") (Mul (V "a_i") (V "x1i")));
    Assign "z1i" (Add (V "z1i") (Mul (V "a_r") (V "x1i")));
    Assign "z1r" (Add (V "z1r") (Mul (V "b_i") (V "y1i")));
    Store (AtInc "Out" "index_z") (V "z1r");
    Assign "z1i" (Sub (V "z1i") (Mul (V "b_r") (V "y1i")));
    Store (AtInc "Out" "index_z") (V "z1i");
    Assign "z2r" (Mul (V "a_r") (V "x2r"));
    Assign "z2i" (Mul (V "a_i") (V "x2r"));
    Assign "z2r" (Sub (V "z2r") (Mul (V "b_r") (V "y2r")));
    Assign "z2i" (Sub (V "z2i") (Mul (V "b_i") (V "y2r")));
    Assign "z2r" (Sub (V "z2r") (Mul (V "a_i") (V "x2i")));
    Assign "z2i" (Add (V "z2i") (Mul (V "a_r") (V "x2i")));
    Assign "z2r" (Add (V "z2r") (Mul (V "b_i") (V "y2i")));
    Store (AtInc "Out" "index_z") (V "z2r");
    Assign "z2i" (Sub (V "z2i") (Mul (V "b_r") (V "y2i")));
    Store (AtInc "Out" "index_z") (V "z2i")])].


(** The spin projection and reconstruction kernels, transcribed into the language of KernLang.v by
    a script: one statement per C statement, in the order of the source; declarations without a
    value are dropped; a local array a[4][3][2] is one run of 24 cells, a[i][j][k] being cell
    (i*3+j)*2+k; Ns = 4, Nc = 3.  All files are in include/scalarsite_generic/. *)
From Coq Require Import ZArith List String.
From Verif Require Import KernLang.
Import ListNotations.
Local Open Scope Z_scope.
Local Open Scope list_scope.
Local Open Scope string_scope.

(** [inlineSpinProjDir0Plus], generic_spin_proj_inlines.h 24-71.  [tmp_spinor] is the local array [tmp_spinor[4][3][2]], passed in by the caller. *)
Definition inlineSpinProjDir0Plus : stmt := seq [
  Ptr "src_shadow" "src" (IC 0);
  Ptr "dst_shadow" "dst" (IC 0);
  Int "re" (IC 0);
  Int "im" (IC 1);
  Int "Ncmpx" (IC 2);
  For "site" (IC 0) (IV "n_vec") 1 (seq [
    Ptr "tmp_shadow" "tmp_spinor" (IC 0);
    For "stream" (IC 0) (IMul (IMul (IC 4) (IC 3)) (IV "Ncmpx")) 1 (seq [
      Store (AtNext "tmp_shadow") (Rd (AtNext "src_shadow"))]);
    For "col" (IC 0) (IC 3) 1 (seq [
      Store (AtNext "dst_shadow") (Sub (Rd (At "tmp_spinor" (IAdd (IMul (IAdd (IMul (IC 0) (IC 3)) (IV "col")) (IC 2)) (IV "re")))) (Rd (At "tmp_spinor" (IAdd (IMul (IAdd (IMul (IC 3) (IC 3)) (IV "col")) (IC 2)) (IV "im")))));
      Store (AtNext "dst_shadow") (Add (Rd (At "tmp_spinor" (IAdd (IMul (IAdd (IMul (IC 0) (IC 3)) (IV "col")) (IC 2)) (IV "im")))) (Rd (At "tmp_spinor" (IAdd (IMul (IAdd (IMul (IC 3) (IC 3)) (IV "col")) (IC 2)) (IV "re")))))]);
    For "col" (IC 0) (IC 3) 1 (seq [
      Store (AtNext "dst_shadow") (Sub (Rd (At "tmp_spinor" (IAdd (IMul (IAdd (IMul (IC 1) (IC 3)) (IV "col")) (IC 2)) (IV "re")))) (Rd (At "tmp_spinor" (IAdd (IMul (IAdd (IMul (IC 2) (IC 3)) (IV "col")) (IC 2)) (IV "im")))));
      Store (AtNext "dst_shadow") (Add (Rd (At "tmp_spinor" (IAdd (IMul (IAdd (IMul (IC 1) (IC 3)) (IV "col")) (IC 2)) (IV "im")))) (Rd (At "tmp_spinor" (IAdd (IMul (IAdd (IMul (IC 2) (IC 3)) (IV "col")) (IC 2)) (IV "re")))))])])].

(** [inlineSpinProjDir0Minus], generic_spin_proj_inlines.h 85-132.  [tmp_spinor] is the local array [tmp_spinor[4][3][2]], passed in by the caller. *)
Definition inlineSpinProjDir0Minus : stmt := seq [
  Ptr "src_shadow" "src" (IC 0);
  Ptr "dst_shadow" "dst" (IC 0);
  Int "re" (IC 0);
  Int "im" (IC 1);
  Int "Ncmpx" (IC 2);
  For "site" (IC 0) (IV "n_vec") 1 (seq [
    Ptr "tmpptr" "tmp_spinor" (IC 0);
    For "stream" (IC 0) (IMul (IMul (IC 4) (IC 3)) (IV "Ncmpx")) 1 (seq [
      Store (AtNext "tmpptr") (Rd (AtNext "src_shadow"))]);
    For "col" (IC 0) (IC 3) 1 (seq [
      Store (AtNext "dst_shadow") (Add (Rd (At "tmp_spinor" (IAdd (IMul (IAdd (IMul (IC 0) (IC 3)) (IV "col")) (IC 2)) (IV "re")))) (Rd (At "tmp_spinor" (IAdd (IMul (IAdd (IMul (IC 3) (IC 3)) (IV "col")) (IC 2)) (IV "im")))));
      Store (AtNext "dst_shadow") (Sub (Rd (At "tmp_spinor" (IAdd (IMul (IAdd (IMul (IC 0) (IC 3)) (IV "col")) (IC 2)) (IV "im")))) (Rd (At "tmp_spinor" (IAdd (IMul (IAdd (IMul (IC 3) (IC 3)) (IV "col")) (IC 2)) (IV "re")))))]);
    For "col" (IC 0) (IC 3) 1 (seq [
      Store (AtNext "dst_shadow") (Add (Rd (At "tmp_spinor" (IAdd (IMul (IAdd (IMul (IC 1) (IC 3)) (IV "col")) (IC 2)) (IV "re")))) (Rd (At "tmp_spinor" (IAdd (IMul (IAdd (IMul (IC 2) (IC 3)) (IV "col")) (IC 2)) (IV "im")))));
      Store (AtNext "dst_shadow") (Sub (Rd (At "tmp_spinor" (IAdd (IMul (IAdd (IMul (IC 1) (IC 3)) (IV "col")) (IC 2)) (IV "im")))) (Rd (At "tmp_spinor" (IAdd (IMul (IAdd (IMul (IC 2) (IC 3)) (IV "col")) (IC 2)) (IV "re")))))])])].

(** [inlineSpinProjDir1Plus], generic_spin_proj_inlines.h 149-194.  [tmp_spinor] is the local array [tmp_spinor[4][3][2]], passed in by the caller. *)
Definition inlineSpinProjDir1Plus : stmt := seq [
  Ptr "src_shadow" "src" (IC 0);
  Ptr "dst_shadow" "dst" (IC 0);
  Int "re" (IC 0);
  Int "im" (IC 1);
  Int "Ncmpx" (IC 2);
  For "site" (IC 0) (IV "n_vec") 1 (seq [
    Ptr "tmp_shadow" "tmp_spinor" (IC 0);
    For "stream" (IC 0) (IMul (IMul (IC 4) (IC 3)) (IV "Ncmpx")) 1 (seq [
      Store (AtNext "tmp_shadow") (Rd (AtNext "src_shadow"))]);
    For "col" (IC 0) (IC 3) 1 (seq [
      Store (AtNext "dst_shadow") (Sub (Rd (At "tmp_spinor" (IAdd (IMul (IAdd (IMul (IC 0) (IC 3)) (IV "col")) (IC 2)) (IV "re")))) (Rd (At "tmp_spinor" (IAdd (IMul (IAdd (IMul (IC 3) (IC 3)) (IV "col")) (IC 2)) (IV "re")))));
      Store (AtNext "dst_shadow") (Sub (Rd (At "tmp_spinor" (IAdd (IMul (IAdd (IMul (IC 0) (IC 3)) (IV "col")) (IC 2)) (IV "im")))) (Rd (At "tmp_spinor" (IAdd (IMul (IAdd (IMul (IC 3) (IC 3)) (IV "col")) (IC 2)) (IV "im")))))]);
    For "col" (IC 0) (IC 3) 1 (seq [
      Store (AtNext "dst_shadow") (Add (Rd (At "tmp_spinor" (IAdd (IMul (IAdd (IMul (IC 1) (IC 3)) (IV "col")) (IC 2)) (IV "re")))) (Rd (At "tmp_spinor" (IAdd (IMul (IAdd (IMul (IC 2) (IC 3)) (IV "col")) (IC 2)) (IV "re")))));
      Store (AtNext "dst_shadow") (Add (Rd (At "tmp_spinor" (IAdd (IMul (IAdd (IMul (IC 1) (IC 3)) (IV "col")) (IC 2)) (IV "im")))) (Rd (At "tmp_spinor" (IAdd (IMul (IAdd (IMul (IC 2) (IC 3)) (IV "col")) (IC 2)) (IV "im")))))])])].

(** [inlineSpinProjDir1Minus], generic_spin_proj_inlines.h 208-254.  [tmp_spinor] is the local array [tmp_spinor[4][3][2]], passed in by the caller. *)
Definition inlineSpinProjDir1Minus : stmt := seq [
  Ptr "src_shadow" "src" (IC 0);
  Ptr "dst_shadow" "dst" (IC 0);
  Int "re" (IC 0);
  Int "im" (IC 1);
  Int "Ncmpx" (IC 2);
  For "site" (IC 0) (IV "n_vec") 1 (seq [
    Ptr "tmpptr" "tmp_spinor" (IC 0);
    For "stream" (IC 0) (IMul (IMul (IC 4) (IC 3)) (IV "Ncmpx")) 1 (seq [
      Store (AtNext "tmpptr") (Rd (AtNext "src_shadow"))]);
    For "col" (IC 0) (IC 3) 1 (seq [
      Store (AtNext "dst_shadow") (Add (Rd (At "tmp_spinor" (IAdd (IMul (IAdd (IMul (IC 0) (IC 3)) (IV "col")) (IC 2)) (IV "re")))) (Rd (At "tmp_spinor" (IAdd (IMul (IAdd (IMul (IC 3) (IC 3)) (IV "col")) (IC 2)) (IV "re")))));
      Store (AtNext "dst_shadow") (Add (Rd (At "tmp_spinor" (IAdd (IMul (IAdd (IMul (IC 0) (IC 3)) (IV "col")) (IC 2)) (IV "im")))) (Rd (At "tmp_spinor" (IAdd (IMul (IAdd (IMul (IC 3) (IC 3)) (IV "col")) (IC 2)) (IV "im")))))]);
    For "col" (IC 0) (IC 3) 1 (seq [
      Store (AtNext "dst_shadow") (Sub (Rd (At "tmp_spinor" (IAdd (IMul (IAdd (IMul (IC 1) (IC 3)) (IV "col")) (IC 2)) (IV "re")))) (Rd (At "tmp_spinor" (IAdd (IMul (IAdd (IMul (IC 2) (IC 3)) (IV "col")) (IC 2)) (IV "re")))));
      Store (AtNext "dst_shadow") (Sub (Rd (At "tmp_spinor" (IAdd (IMul (IAdd (IMul (IC 1) (IC 3)) (IV "col")) (IC 2)) (IV "im")))) (Rd (At "tmp_spinor" (IAdd (IMul (IAdd (IMul (IC 2) (IC 3)) (IV "col")) (IC 2)) (IV "im")))))])])].

(** [inlineSpinProjDir2Plus], generic_spin_proj_inlines.h 270-316.  [tmp_spinor] is the local array [tmp_spinor[4][3][2]], passed in by the caller. *)
Definition inlineSpinProjDir2Plus : stmt := seq [
  Ptr "src_shadow" "src" (IC 0);
  Ptr "dst_shadow" "dst" (IC 0);
  Int "re" (IC 0);
  Int "im" (IC 1);
  Int "Ncmpx" (IC 2);
  For "site" (IC 0) (IV "n_vec") 1 (seq [
    Ptr "tmp_shadow" "tmp_spinor" (IC 0);
    For "stream" (IC 0) (IMul (IMul (IC 4) (IC 3)) (IV "Ncmpx")) 1 (seq [
      Store (AtNext "tmp_shadow") (Rd (AtNext "src_shadow"))]);
    For "col" (IC 0) (IC 3) 1 (seq [
      Store (AtNext "dst_shadow") (Sub (Rd (At "tmp_spinor" (IAdd (IMul (IAdd (IMul (IC 0) (IC 3)) (IV "col")) (IC 2)) (IV "re")))) (Rd (At "tmp_spinor" (IAdd (IMul (IAdd (IMul (IC 2) (IC 3)) (IV "col")) (IC 2)) (IV "im")))));
      Store (AtNext "dst_shadow") (Add (Rd (At "tmp_spinor" (IAdd (IMul (IAdd (IMul (IC 0) (IC 3)) (IV "col")) (IC 2)) (IV "im")))) (Rd (At "tmp_spinor" (IAdd (IMul (IAdd (IMul (IC 2) (IC 3)) (IV "col")) (IC 2)) (IV "re")))))]);
    For "col" (IC 0) (IC 3) 1 (seq [
      Store (AtNext "dst_shadow") (Add (Rd (At "tmp_spinor" (IAdd (IMul (IAdd (IMul (IC 1) (IC 3)) (IV "col")) (IC 2)) (IV "re")))) (Rd (At "tmp_spinor" (IAdd (IMul (IAdd (IMul (IC 3) (IC 3)) (IV "col")) (IC 2)) (IV "im")))));
      Store (AtNext "dst_shadow") (Sub (Rd (At "tmp_spinor" (IAdd (IMul (IAdd (IMul (IC 1) (IC 3)) (IV "col")) (IC 2)) (IV "im")))) (Rd (At "tmp_spinor" (IAdd (IMul (IAdd (IMul (IC 3) (IC 3)) (IV "col")) (IC 2)) (IV "re")))))])])].

(** [inlineSpinProjDir2Minus], generic_spin_proj_inlines.h 330-377.  [tmp_spinor] is the local array [tmp_spinor[4][3][2]], passed in by the caller. *)
Definition inlineSpinProjDir2Minus : stmt := seq [
  Ptr "src_shadow" "src" (IC 0);
  Ptr "dst_shadow" "dst" (IC 0);
  Int "re" (IC 0);
  Int "im" (IC 1);
  Int "Ncmpx" (IC 2);
  For "site" (IC 0) (IV "n_vec") 1 (seq [
    Ptr "tmpptr" "tmp_spinor" (IC 0);
    For "stream" (IC 0) (IMul (IMul (IC 4) (IC 3)) (IV "Ncmpx")) 1 (seq [
      Store (AtNext "tmpptr") (Rd (AtNext "src_shadow"))]);
    For "col" (IC 0) (IC 3) 1 (seq [
      Store (AtNext "dst_shadow") (Add (Rd (At "tmp_spinor" (IAdd (IMul (IAdd (IMul (IC 0) (IC 3)) (IV "col")) (IC 2)) (IV "re")))) (Rd (At "tmp_spinor" (IAdd (IMul (IAdd (IMul (IC 2) (IC 3)) (IV "col")) (IC 2)) (IV "im")))));
      Store (AtNext "dst_shadow") (Sub (Rd (At "tmp_spinor" (IAdd (IMul (IAdd (IMul (IC 0) (IC 3)) (IV "col")) (IC 2)) (IV "im")))) (Rd (At "tmp_spinor" (IAdd (IMul (IAdd (IMul (IC 2) (IC 3)) (IV "col")) (IC 2)) (IV "re")))))]);
    For "col" (IC 0) (IC 3) 1 (seq [
      Store (AtNext "dst_shadow") (Sub (Rd (At "tmp_spinor" (IAdd (IMul (IAdd (IMul (IC 1) (IC 3)) (IV "col")) (IC 2)) (IV "re")))) (Rd (At "tmp_spinor" (IAdd (IMul (IAdd (IMul (IC 3) (IC 3)) (IV "col")) (IC 2)) (IV "im")))));
      Store (AtNext "dst_shadow") (Add (Rd (At "tmp_spinor" (IAdd (IMul (IAdd (IMul (IC 1) (IC 3)) (IV "col")) (IC 2)) (IV "im")))) (Rd (At "tmp_spinor" (IAdd (IMul (IAdd (IMul (IC 3) (IC 3)) (IV "col")) (IC 2)) (IV "re")))))])])].

(** [inlineSpinProjDir3Plus], generic_spin_proj_inlines.h 392-437.  [tmp_spinor] is the local array [tmp_spinor[4][3][2]], passed in by the caller. *)
Definition inlineSpinProjDir3Plus : stmt := seq [
  Ptr "src_shadow" "src" (IC 0);
  Ptr "dst_shadow" "dst" (IC 0);
  Int "re" (IC 0);
  Int "im" (IC 1);
  Int "Ncmpx" (IC 2);
  For "site" (IC 0) (IV "n_vec") 1 (seq [
    Ptr "tmp_shadow" "tmp_spinor" (IC 0);
    For "stream" (IC 0) (IMul (IMul (IC 4) (IC 3)) (IV "Ncmpx")) 1 (seq [
      Store (AtNext "tmp_shadow") (Rd (AtNext "src_shadow"))]);
    For "col" (IC 0) (IC 3) 1 (seq [
      Store (AtNext "dst_shadow") (Add (Rd (At "tmp_spinor" (IAdd (IMul (IAdd (IMul (IC 0) (IC 3)) (IV "col")) (IC 2)) (IV "re")))) (Rd (At "tmp_spinor" (IAdd (IMul (IAdd (IMul (IC 2) (IC 3)) (IV "col")) (IC 2)) (IV "re")))));
      Store (AtNext "dst_shadow") (Add (Rd (At "tmp_spinor" (IAdd (IMul (IAdd (IMul (IC 0) (IC 3)) (IV "col")) (IC 2)) (IV "im")))) (Rd (At "tmp_spinor" (IAdd (IMul (IAdd (IMul (IC 2) (IC 3)) (IV "col")) (IC 2)) (IV "im")))))]);
    For "col" (IC 0) (IC 3) 1 (seq [
      Store (AtNext "dst_shadow") (Add (Rd (At "tmp_spinor" (IAdd (IMul (IAdd (IMul (IC 1) (IC 3)) (IV "col")) (IC 2)) (IV "re")))) (Rd (At "tmp_spinor" (IAdd (IMul (IAdd (IMul (IC 3) (IC 3)) (IV "col")) (IC 2)) (IV "re")))));
      Store (AtNext "dst_shadow") (Add (Rd (At "tmp_spinor" (IAdd (IMul (IAdd (IMul (IC 1) (IC 3)) (IV "col")) (IC 2)) (IV "im")))) (Rd (At "tmp_spinor" (IAdd (IMul (IAdd (IMul (IC 3) (IC 3)) (IV "col")) (IC 2)) (IV "im")))))])])].

(** [inlineSpinProjDir3Minus], generic_spin_proj_inlines.h 451-498.  [tmp_spinor] is the local array [tmp_spinor[4][3][2]], passed in by the caller. *)
Definition inlineSpinProjDir3Minus : stmt := seq [
  Ptr "src_shadow" "src" (IC 0);
  Ptr "dst_shadow" "dst" (IC 0);
  Int "re" (IC 0);
  Int "im" (IC 1);
  Int "Ncmpx" (IC 2);
  For "site" (IC 0) (IV "n_vec") 1 (seq [
    Ptr "tmpptr" "tmp_spinor" (IC 0);
    For "stream" (IC 0) (IMul (IMul (IC 4) (IC 3)) (IV "Ncmpx")) 1 (seq [
      Store (AtNext "tmpptr") (Rd (AtNext "src_shadow"))]);
    For "col" (IC 0) (IC 3) 1 (seq [
      Store (AtNext "dst_shadow") (Sub (Rd (At "tmp_spinor" (IAdd (IMul (IAdd (IMul (IC 0) (IC 3)) (IV "col")) (IC 2)) (IV "re")))) (Rd (At "tmp_spinor" (IAdd (IMul (IAdd (IMul (IC 2) (IC 3)) (IV "col")) (IC 2)) (IV "re")))));
      Store (AtNext "dst_shadow") (Sub (Rd (At "tmp_spinor" (IAdd (IMul (IAdd (IMul (IC 0) (IC 3)) (IV "col")) (IC 2)) (IV "im")))) (Rd (At "tmp_spinor" (IAdd (IMul (IAdd (IMul (IC 2) (IC 3)) (IV "col")) (IC 2)) (IV "im")))))]);
    For "col" (IC 0) (IC 3) 1 (seq [
      Store (AtNext "dst_shadow") (Sub (Rd (At "tmp_spinor" (IAdd (IMul (IAdd (IMul (IC 1) (IC 3)) (IV "col")) (IC 2)) (IV "re")))) (Rd (At "tmp_spinor" (IAdd (IMul (IAdd (IMul (IC 3) (IC 3)) (IV "col")) (IC 2)) (IV "re")))));
      Store (AtNext "dst_shadow") (Sub (Rd (At "tmp_spinor" (IAdd (IMul (IAdd (IMul (IC 1) (IC 3)) (IV "col")) (IC 2)) (IV "im")))) (Rd (At "tmp_spinor" (IAdd (IMul (IAdd (IMul (IC 3) (IC 3)) (IV "col")) (IC 2)) (IV "im")))))])])].

(** [inlineSpinReconDir0Plus], generic_spin_recon_inlines.h 23-73.  [tmp_hspinor] is the local array [tmp_hspinor[4][3][2]], passed in by the caller. *)
Definition inlineSpinReconDir0Plus : stmt := seq [
  Ptr "src_shadow" "src" (IC 0);
  Ptr "dst_shadow" "dst" (IC 0);
  Int "re" (IC 0);
  Int "im" (IC 1);
  Int "Ncmpx" (IC 2);
  Int "Nsby2" (IC 2);
  For "site" (IC 0) (IV "n_vec") 1 (seq [
    Ptr "tmp_shadow" "tmp_hspinor" (IC 0);
    For "stream" (IC 0) (IMul (IMul (IV "Nsby2") (IC 3)) (IV "Ncmpx")) 1 (seq [
      Assign "tmp" (Rd (AtNext "src_shadow"));
      Store (AtNext "tmp_shadow") (V "tmp");
      Store (AtNext "dst_shadow") (V "tmp")]);
    For "col" (IC 0) (IC 3) 1 (seq [
      Store (AtNext "dst_shadow") (Rd (At "tmp_hspinor" (IAdd (IMul (IAdd (IMul (IC 1) (IC 3)) (IV "col")) (IC 2)) (IV "im"))));
      Store (AtNext "dst_shadow") (Neg (Rd (At "tmp_hspinor" (IAdd (IMul (IAdd (IMul (IC 1) (IC 3)) (IV "col")) (IC 2)) (IV "re")))))]);
    For "col" (IC 0) (IC 3) 1 (seq [
      Store (AtNext "dst_shadow") (Rd (At "tmp_hspinor" (IAdd (IMul (IAdd (IMul (IC 0) (IC 3)) (IV "col")) (IC 2)) (IV "im"))));
      Store (AtNext "dst_shadow") (Neg (Rd (At "tmp_hspinor" (IAdd (IMul (IAdd (IMul (IC 0) (IC 3)) (IV "col")) (IC 2)) (IV "re")))))])])].

(** [inlineSpinReconDir0Minus], generic_spin_recon_inlines.h 88-139.  [tmp_hspinor] is the local array [tmp_hspinor[4][3][2]], passed in by the caller. *)
Definition inlineSpinReconDir0Minus : stmt := seq [
  Ptr "src_shadow" "src" (IC 0);
  Ptr "dst_shadow" "dst" (IC 0);
  Int "re" (IC 0);
  Int "im" (IC 1);
  Int "Ncmpx" (IC 2);
  Int "Nsby2" (IC 2);
  For "site" (IC 0) (IV "n_vec") 1 (seq [
    Ptr "tmp_shadow" "tmp_hspinor" (IC 0);
    For "stream" (IC 0) (IMul (IMul (IV "Nsby2") (IC 3)) (IV "Ncmpx")) 1 (seq [
      Assign "tmp" (Rd (AtNext "src_shadow"));
      Store (AtNext "tmp_shadow") (V "tmp");
      Store (AtNext "dst_shadow") (V "tmp")]);
    For "col" (IC 0) (IC 3) 1 (seq [
      Store (AtNext "dst_shadow") (Neg (Rd (At "tmp_hspinor" (IAdd (IMul (IAdd (IMul (IC 1) (IC 3)) (IV "col")) (IC 2)) (IV "im")))));
      Store (AtNext "dst_shadow") (Rd (At "tmp_hspinor" (IAdd (IMul (IAdd (IMul (IC 1) (IC 3)) (IV "col")) (IC 2)) (IV "re"))))]);
    For "col" (IC 0) (IC 3) 1 (seq [
      Store (AtNext "dst_shadow") (Neg (Rd (At "tmp_hspinor" (IAdd (IMul (IAdd (IMul (IC 0) (IC 3)) (IV "col")) (IC 2)) (IV "im")))));
      Store (AtNext "dst_shadow") (Rd (At "tmp_hspinor" (IAdd (IMul (IAdd (IMul (IC 0) (IC 3)) (IV "col")) (IC 2)) (IV "re"))))])])].

(** [inlineSpinReconDir1Plus], generic_spin_recon_inlines.h 154-206.  [tmp_hspinor] is the local array [tmp_hspinor[4][3][2]], passed in by the caller. *)
Definition inlineSpinReconDir1Plus : stmt := seq [
  Ptr "src_shadow" "src" (IC 0);
  Ptr "dst_shadow" "dst" (IC 0);
  Int "re" (IC 0);
  Int "im" (IC 1);
  Int "Ncmpx" (IC 2);
  Int "Nsby2" (IC 2);
  For "site" (IC 0) (IV "n_vec") 1 (seq [
    Ptr "tmp_shadow" "tmp_hspinor" (IC 0);
    For "stream" (IC 0) (IMul (IMul (IV "Nsby2") (IC 3)) (IV "Ncmpx")) 1 (seq [
      Assign "tmp" (Rd (AtNext "src_shadow"));
      Store (AtNext "tmp_shadow") (V "tmp");
      Store (AtNext "dst_shadow") (V "tmp")]);
    For "col" (IC 0) (IC 3) 1 (seq [
      Store (AtNext "dst_shadow") (Rd (At "tmp_hspinor" (IAdd (IMul (IAdd (IMul (IC 1) (IC 3)) (IV "col")) (IC 2)) (IV "re"))));
      Store (AtNext "dst_shadow") (Rd (At "tmp_hspinor" (IAdd (IMul (IAdd (IMul (IC 1) (IC 3)) (IV "col")) (IC 2)) (IV "im"))))]);
    For "col" (IC 0) (IC 3) 1 (seq [
      Store (AtNext "dst_shadow") (Neg (Rd (At "tmp_hspinor" (IAdd (IMul (IAdd (IMul (IC 0) (IC 3)) (IV "col")) (IC 2)) (IV "re")))));
      Store (AtNext "dst_shadow") (Neg (Rd (At "tmp_hspinor" (IAdd (IMul (IAdd (IMul (IC 0) (IC 3)) (IV "col")) (IC 2)) (IV "im")))))])])].

(** [inlineSpinReconDir1Minus], generic_spin_recon_inlines.h 221-276.  [tmp_hspinor] is the local array [tmp_hspinor[4][3][2]], passed in by the caller. *)
Definition inlineSpinReconDir1Minus : stmt := seq [
  Ptr "src_shadow" "src" (IC 0);
  Ptr "dst_shadow" "dst" (IC 0);
  Int "re" (IC 0);
  Int "im" (IC 1);
  Int "Ncmpx" (IC 2);
  Int "Nsby2" (IC 2);
  For "site" (IC 0) (IV "n_vec") 1 (seq [
    Ptr "tmp_shadow" "tmp_hspinor" (IC 0);
    For "stream" (IC 0) (IMul (IMul (IV "Nsby2") (IC 3)) (IV "Ncmpx")) 1 (seq [
      Assign "tmp" (Rd (AtNext "src_shadow"));
      Store (AtNext "tmp_shadow") (V "tmp");
      Store (AtNext "dst_shadow") (V "tmp")]);
    For "col" (IC 0) (IC 3) 1 (seq [
      Store (AtNext "dst_shadow") (Neg (Rd (At "tmp_hspinor" (IAdd (IMul (IAdd (IMul (IC 1) (IC 3)) (IV "col")) (IC 2)) (IV "re")))));
      Store (AtNext "dst_shadow") (Neg (Rd (At "tmp_hspinor" (IAdd (IMul (IAdd (IMul (IC 1) (IC 3)) (IV "col")) (IC 2)) (IV "im")))))]);
    For "col" (IC 0) (IC 3) 1 (seq [
      Store (AtNext "dst_shadow") (Rd (At "tmp_hspinor" (IAdd (IMul (IAdd (IMul (IC 0) (IC 3)) (IV "col")) (IC 2)) (IV "re"))));
      Store (AtNext "dst_shadow") (Rd (At "tmp_hspinor" (IAdd (IMul (IAdd (IMul (IC 0) (IC 3)) (IV "col")) (IC 2)) (IV "im"))))])])].

(** [inlineSpinReconDir2Plus], generic_spin_recon_inlines.h 292-344.  [tmp_hspinor] is the local array [tmp_hspinor[4][3][2]], passed in by the caller. *)
Definition inlineSpinReconDir2Plus : stmt := seq [
  Ptr "src_shadow" "src" (IC 0);
  Ptr "dst_shadow" "dst" (IC 0);
  Int "re" (IC 0);
  Int "im" (IC 1);
  Int "Ncmpx" (IC 2);
  Int "Nsby2" (IC 2);
  For "site" (IC 0) (IV "n_vec") 1 (seq [
    Ptr "tmp_shadow" "tmp_hspinor" (IC 0);
    For "stream" (IC 0) (IMul (IMul (IV "Nsby2") (IC 3)) (IV "Ncmpx")) 1 (seq [
      Assign "tmp" (Rd (AtNext "src_shadow"));
      Store (AtNext "tmp_shadow") (V "tmp");
      Store (AtNext "dst_shadow") (V "tmp")]);
    For "col" (IC 0) (IC 3) 1 (seq [
      Store (AtNext "dst_shadow") (Rd (At "tmp_hspinor" (IAdd (IMul (IAdd (IMul (IC 0) (IC 3)) (IV "col")) (IC 2)) (IV "im"))));
      Store (AtNext "dst_shadow") (Neg (Rd (At "tmp_hspinor" (IAdd (IMul (IAdd (IMul (IC 0) (IC 3)) (IV "col")) (IC 2)) (IV "re")))))]);
    For "col" (IC 0) (IC 3) 1 (seq [
      Store (AtNext "dst_shadow") (Neg (Rd (At "tmp_hspinor" (IAdd (IMul (IAdd (IMul (IC 1) (IC 3)) (IV "col")) (IC 2)) (IV "im")))));
      Store (AtNext "dst_shadow") (Rd (At "tmp_hspinor" (IAdd (IMul (IAdd (IMul (IC 1) (IC 3)) (IV "col")) (IC 2)) (IV "re"))))])])].

(** [inlineSpinReconDir2Minus], generic_spin_recon_inlines.h 359-411.  [tmp_hspinor] is the local array [tmp_hspinor[4][3][2]], passed in by the caller. *)
Definition inlineSpinReconDir2Minus : stmt := seq [
  Ptr "src_shadow" "src" (IC 0);
  Ptr "dst_shadow" "dst" (IC 0);
  Int "re" (IC 0);
  Int "im" (IC 1);
  Int "Ncmpx" (IC 2);
  Int "Nsby2" (IC 2);
  For "site" (IC 0) (IV "n_vec") 1 (seq [
    Ptr "tmp_shadow" "tmp_hspinor" (IC 0);
    For "stream" (IC 0) (IMul (IMul (IV "Nsby2") (IC 3)) (IV "Ncmpx")) 1 (seq [
      Assign "tmp" (Rd (AtNext "src_shadow"));
      Store (AtNext "tmp_shadow") (V "tmp");
      Store (AtNext "dst_shadow") (V "tmp")]);
    For "col" (IC 0) (IC 3) 1 (seq [
      Store (AtNext "dst_shadow") (Neg (Rd (At "tmp_hspinor" (IAdd (IMul (IAdd (IMul (IC 0) (IC 3)) (IV "col")) (IC 2)) (IV "im")))));
      Store (AtNext "dst_shadow") (Rd (At "tmp_hspinor" (IAdd (IMul (IAdd (IMul (IC 0) (IC 3)) (IV "col")) (IC 2)) (IV "re"))))]);
    For "col" (IC 0) (IC 3) 1 (seq [
      Store (AtNext "dst_shadow") (Rd (At "tmp_hspinor" (IAdd (IMul (IAdd (IMul (IC 1) (IC 3)) (IV "col")) (IC 2)) (IV "im"))));
      Store (AtNext "dst_shadow") (Neg (Rd (At "tmp_hspinor" (IAdd (IMul (IAdd (IMul (IC 1) (IC 3)) (IV "col")) (IC 2)) (IV "re")))))])])].

(** [inlineSpinReconDir3Plus], generic_spin_recon_inlines.h 427-480.  [tmp_hspinor] is the local array [tmp_hspinor[4][3][2]], passed in by the caller. *)
Definition inlineSpinReconDir3Plus : stmt := seq [
  Ptr "src_shadow" "src" (IC 0);
  Ptr "dst_shadow" "dst" (IC 0);
  Int "re" (IC 0);
  Int "im" (IC 1);
  Int "Ncmpx" (IC 2);
  Int "Nsby2" (IC 2);
  For "site" (IC 0) (IV "n_vec") 1 (seq [
    Ptr "tmp_shadow" "tmp_hspinor" (IC 0);
    For "stream" (IC 0) (IMul (IMul (IV "Nsby2") (IC 3)) (IV "Ncmpx")) 1 (seq [
      Assign "tmp" (Rd (AtNext "src_shadow"));
      Store (AtNext "tmp_shadow") (V "tmp");
      Store (AtNext "dst_shadow") (V "tmp")]);
    For "col" (IC 0) (IC 3) 1 (seq [
      Store (AtNext "dst_shadow") (Rd (At "tmp_hspinor" (IAdd (IMul (IAdd (IMul (IC 0) (IC 3)) (IV "col")) (IC 2)) (IV "re"))));
      Store (AtNext "dst_shadow") (Rd (At "tmp_hspinor" (IAdd (IMul (IAdd (IMul (IC 0) (IC 3)) (IV "col")) (IC 2)) (IV "im"))))]);
    For "col" (IC 0) (IC 3) 1 (seq [
      Store (AtNext "dst_shadow") (Rd (At "tmp_hspinor" (IAdd (IMul (IAdd (IMul (IC 1) (IC 3)) (IV "col")) (IC 2)) (IV "re"))));
      Store (AtNext "dst_shadow") (Rd (At "tmp_hspinor" (IAdd (IMul (IAdd (IMul (IC 1) (IC 3)) (IV "col")) (IC 2)) (IV "im"))))])])].

(** [inlineSpinReconDir3Minus], generic_spin_recon_inlines.h 495-546.  [tmp_hspinor] is the local array [tmp_hspinor[4][3][2]], passed in by the caller. *)
Definition inlineSpinReconDir3Minus : stmt := seq [
  Ptr "src_shadow" "src" (IC 0);
  Ptr "dst_shadow" "dst" (IC 0);
  Int "re" (IC 0);
  Int "im" (IC 1);
  Int "Ncmpx" (IC 2);
  Int "Nsby2" (IC 2);
  For "site" (IC 0) (IV "n_vec") 1 (seq [
    Ptr "tmp_shadow" "tmp_hspinor" (IC 0);
    For "stream" (IC 0) (IMul (IMul (IV "Nsby2") (IC 3)) (IV "Ncmpx")) 1 (seq [
      Assign "tmp" (Rd (AtNext "src_shadow"));
      Store (AtNext "tmp_shadow") (V "tmp");
      Store (AtNext "dst_shadow") (V "tmp")]);
    For "col" (IC 0) (IC 3) 1 (seq [
      Store (AtNext "dst_shadow") (Neg (Rd (At "tmp_hspinor" (IAdd (IMul (IAdd (IMul (IC 0) (IC 3)) (IV "col")) (IC 2)) (IV "re")))));
      Store (AtNext "dst_shadow") (Neg (Rd (At "tmp_hspinor" (IAdd (IMul (IAdd (IMul (IC 0) (IC 3)) (IV "col")) (IC 2)) (IV "im")))))]);
    For "col" (IC 0) (IC 3) 1 (seq [
      Store (AtNext "dst_shadow") (Neg (Rd (At "tmp_hspinor" (IAdd (IMul (IAdd (IMul (IC 1) (IC 3)) (IV "col")) (IC 2)) (IV "re")))));
      Store (AtNext "dst_shadow") (Neg (Rd (At "tmp_hspinor" (IAdd (IMul (IAdd (IMul (IC 1) (IC 3)) (IV "col")) (IC 2)) (IV "im")))))])])].

(** [inlineAddSpinReconDir0Plus], generic_spin_recon_inlines.h 563-613.  [tmp_hspinor] is the local array [tmp_hspinor[4][3][2]], passed in by the caller. *)
Definition inlineAddSpinReconDir0Plus : stmt := seq [
  Ptr "src_shadow" "src" (IC 0);
  Ptr "dst_shadow" "dst" (IC 0);
  Int "re" (IC 0);
  Int "im" (IC 1);
  Int "Ncmpx" (IC 2);
  Int "Nsby2" (IC 2);
  For "site" (IC 0) (IV "n_vec") 1 (seq [
    Ptr "tmp_shadow" "tmp_hspinor" (IC 0);
    For "stream" (IC 0) (IMul (IMul (IV "Nsby2") (IC 3)) (IV "Ncmpx")) 1 (seq [
      Assign "tmp" (Rd (AtNext "src_shadow"));
      Store (AtNext "tmp_shadow") (V "tmp");
      StoreAdd (AtNext "dst_shadow") (V "tmp")]);
    For "col" (IC 0) (IC 3) 1 (seq [
      StoreAdd (AtNext "dst_shadow") (Rd (At "tmp_hspinor" (IAdd (IMul (IAdd (IMul (IC 1) (IC 3)) (IV "col")) (IC 2)) (IV "im"))));
      StoreSub (AtNext "dst_shadow") (Rd (At "tmp_hspinor" (IAdd (IMul (IAdd (IMul (IC 1) (IC 3)) (IV "col")) (IC 2)) (IV "re"))))]);
    For "col" (IC 0) (IC 3) 1 (seq [
      StoreAdd (AtNext "dst_shadow") (Rd (At "tmp_hspinor" (IAdd (IMul (IAdd (IMul (IC 0) (IC 3)) (IV "col")) (IC 2)) (IV "im"))));
      StoreSub (AtNext "dst_shadow") (Rd (At "tmp_hspinor" (IAdd (IMul (IAdd (IMul (IC 0) (IC 3)) (IV "col")) (IC 2)) (IV "re"))))])])].

(** [inlineAddSpinReconDir0Minus], generic_spin_recon_inlines.h 628-679.  [tmp_hspinor] is the local array [tmp_hspinor[4][3][2]], passed in by the caller. *)
Definition inlineAddSpinReconDir0Minus : stmt := seq [
  Ptr "src_shadow" "src" (IC 0);
  Ptr "dst_shadow" "dst" (IC 0);
  Int "re" (IC 0);
  Int "im" (IC 1);
  Int "Ncmpx" (IC 2);
  Int "Nsby2" (IC 2);
  For "site" (IC 0) (IV "n_vec") 1 (seq [
    Ptr "tmp_shadow" "tmp_hspinor" (IC 0);
    For "stream" (IC 0) (IMul (IMul (IV "Nsby2") (IC 3)) (IV "Ncmpx")) 1 (seq [
      Assign "tmp" (Rd (AtNext "src_shadow"));
      Store (AtNext "tmp_shadow") (V "tmp");
      StoreAdd (AtNext "dst_shadow") (V "tmp")]);
    For "col" (IC 0) (IC 3) 1 (seq [
      StoreSub (AtNext "dst_shadow") (Rd (At "tmp_hspinor" (IAdd (IMul (IAdd (IMul (IC 1) (IC 3)) (IV "col")) (IC 2)) (IV "im"))));
      StoreAdd (AtNext "dst_shadow") (Rd (At "tmp_hspinor" (IAdd (IMul (IAdd (IMul (IC 1) (IC 3)) (IV "col")) (IC 2)) (IV "re"))))]);
    For "col" (IC 0) (IC 3) 1 (seq [
      StoreSub (AtNext "dst_shadow") (Rd (At "tmp_hspinor" (IAdd (IMul (IAdd (IMul (IC 0) (IC 3)) (IV "col")) (IC 2)) (IV "im"))));
      StoreAdd (AtNext "dst_shadow") (Rd (At "tmp_hspinor" (IAdd (IMul (IAdd (IMul (IC 0) (IC 3)) (IV "col")) (IC 2)) (IV "re"))))])])].

(** [inlineAddSpinReconDir1Plus], generic_spin_recon_inlines.h 694-746.  [tmp_hspinor] is the local array [tmp_hspinor[4][3][2]], passed in by the caller. *)
Definition inlineAddSpinReconDir1Plus : stmt := seq [
  Ptr "src_shadow" "src" (IC 0);
  Ptr "dst_shadow" "dst" (IC 0);
  Int "re" (IC 0);
  Int "im" (IC 1);
  Int "Ncmpx" (IC 2);
  Int "Nsby2" (IC 2);
  For "site" (IC 0) (IV "n_vec") 1 (seq [
    Ptr "tmp_shadow" "tmp_hspinor" (IC 0);
    For "stream" (IC 0) (IMul (IMul (IV "Nsby2") (IC 3)) (IV "Ncmpx")) 1 (seq [
      Assign "tmp" (Rd (AtNext "src_shadow"));
      Store (AtNext "tmp_shadow") (V "tmp");
      StoreAdd (AtNext "dst_shadow") (V "tmp")]);
    For "col" (IC 0) (IC 3) 1 (seq [
      StoreAdd (AtNext "dst_shadow") (Rd (At "tmp_hspinor" (IAdd (IMul (IAdd (IMul (IC 1) (IC 3)) (IV "col")) (IC 2)) (IV "re"))));
      StoreAdd (AtNext "dst_shadow") (Rd (At "tmp_hspinor" (IAdd (IMul (IAdd (IMul (IC 1) (IC 3)) (IV "col")) (IC 2)) (IV "im"))))]);
    For "col" (IC 0) (IC 3) 1 (seq [
      StoreSub (AtNext "dst_shadow") (Rd (At "tmp_hspinor" (IAdd (IMul (IAdd (IMul (IC 0) (IC 3)) (IV "col")) (IC 2)) (IV "re"))));
      StoreSub (AtNext "dst_shadow") (Rd (At "tmp_hspinor" (IAdd (IMul (IAdd (IMul (IC 0) (IC 3)) (IV "col")) (IC 2)) (IV "im"))))])])].

(** [inlineAddSpinReconDir1Minus], generic_spin_recon_inlines.h 761-816.  [tmp_hspinor] is the local array [tmp_hspinor[4][3][2]], passed in by the caller. *)
Definition inlineAddSpinReconDir1Minus : stmt := seq [
  Ptr "src_shadow" "src" (IC 0);
  Ptr "dst_shadow" "dst" (IC 0);
  Int "re" (IC 0);
  Int "im" (IC 1);
  Int "Ncmpx" (IC 2);
  Int "Nsby2" (IC 2);
  For "site" (IC 0) (IV "n_vec") 1 (seq [
    Ptr "tmp_shadow" "tmp_hspinor" (IC 0);
    For "stream" (IC 0) (IMul (IMul (IV "Nsby2") (IC 3)) (IV "Ncmpx")) 1 (seq [
      Assign "tmp" (Rd (AtNext "src_shadow"));
      Store (AtNext "tmp_shadow") (V "tmp");
      StoreAdd (AtNext "dst_shadow") (V "tmp")]);
    For "col" (IC 0) (IC 3) 1 (seq [
      StoreSub (AtNext "dst_shadow") (Rd (At "tmp_hspinor" (IAdd (IMul (IAdd (IMul (IC 1) (IC 3)) (IV "col")) (IC 2)) (IV "re"))));
      StoreSub (AtNext "dst_shadow") (Rd (At "tmp_hspinor" (IAdd (IMul (IAdd (IMul (IC 1) (IC 3)) (IV "col")) (IC 2)) (IV "im"))))]);
    For "col" (IC 0) (IC 3) 1 (seq [
      StoreAdd (AtNext "dst_shadow") (Rd (At "tmp_hspinor" (IAdd (IMul (IAdd (IMul (IC 0) (IC 3)) (IV "col")) (IC 2)) (IV "re"))));
      StoreAdd (AtNext "dst_shadow") (Rd (At "tmp_hspinor" (IAdd (IMul (IAdd (IMul (IC 0) (IC 3)) (IV "col")) (IC 2)) (IV "im"))))])])].

(** [inlineAddSpinReconDir2Plus], generic_spin_recon_inlines.h 832-884.  [tmp_hspinor] is the local array [tmp_hspinor[4][3][2]], passed in by the caller. *)
Definition inlineAddSpinReconDir2Plus : stmt := seq [
  Ptr "src_shadow" "src" (IC 0);
  Ptr "dst_shadow" "dst" (IC 0);
  Int "re" (IC 0);
  Int "im" (IC 1);
  Int "Ncmpx" (IC 2);
  Int "Nsby2" (IC 2);
  For "site" (IC 0) (IV "n_vec") 1 (seq [
    Ptr "tmp_shadow" "tmp_hspinor" (IC 0);
    For "stream" (IC 0) (IMul (IMul (IV "Nsby2") (IC 3)) (IV "Ncmpx")) 1 (seq [
      Assign "tmp" (Rd (AtNext "src_shadow"));
      Store (AtNext "tmp_shadow") (V "tmp");
      StoreAdd (AtNext "dst_shadow") (V "tmp")]);
    For "col" (IC 0) (IC 3) 1 (seq [
      StoreAdd (AtNext "dst_shadow") (Rd (At "tmp_hspinor" (IAdd (IMul (IAdd (IMul (IC 0) (IC 3)) (IV "col")) (IC 2)) (IV "im"))));
      StoreSub (AtNext "dst_shadow") (Rd (At "tmp_hspinor" (IAdd (IMul (IAdd (IMul (IC 0) (IC 3)) (IV "col")) (IC 2)) (IV "re"))))]);
    For "col" (IC 0) (IC 3) 1 (seq [
      StoreSub (AtNext "dst_shadow") (Rd (At "tmp_hspinor" (IAdd (IMul (IAdd (IMul (IC 1) (IC 3)) (IV "col")) (IC 2)) (IV "im"))));
      StoreAdd (AtNext "dst_shadow") (Rd (At "tmp_hspinor" (IAdd (IMul (IAdd (IMul (IC 1) (IC 3)) (IV "col")) (IC 2)) (IV "re"))))])])].

(** [inlineAddSpinReconDir2Minus], generic_spin_recon_inlines.h 899-951.  [tmp_hspinor] is the local array [tmp_hspinor[4][3][2]], passed in by the caller. *)
Definition inlineAddSpinReconDir2Minus : stmt := seq [
  Ptr "src_shadow" "src" (IC 0);
  Ptr "dst_shadow" "dst" (IC 0);
  Int "re" (IC 0);
  Int "im" (IC 1);
  Int "Ncmpx" (IC 2);
  Int "Nsby2" (IC 2);
  For "site" (IC 0) (IV "n_vec") 1 (seq [
    Ptr "tmp_shadow" "tmp_hspinor" (IC 0);
    For "stream" (IC 0) (IMul (IMul (IV "Nsby2") (IC 3)) (IV "Ncmpx")) 1 (seq [
      Assign "tmp" (Rd (AtNext "src_shadow"));
      Store (AtNext "tmp_shadow") (V "tmp");
      StoreAdd (AtNext "dst_shadow") (V "tmp")]);
    For "col" (IC 0) (IC 3) 1 (seq [
      StoreSub (AtNext "dst_shadow") (Rd (At "tmp_hspinor" (IAdd (IMul (IAdd (IMul (IC 0) (IC 3)) (IV "col")) (IC 2)) (IV "im"))));
      StoreAdd (AtNext "dst_shadow") (Rd (At "tmp_hspinor" (IAdd (IMul (IAdd (IMul (IC 0) (IC 3)) (IV "col")) (IC 2)) (IV "re"))))]);
    For "col" (IC 0) (IC 3) 1 (seq [
      StoreAdd (AtNext "dst_shadow") (Rd (At "tmp_hspinor" (IAdd (IMul (IAdd (IMul (IC 1) (IC 3)) (IV "col")) (IC 2)) (IV "im"))));
      StoreSub (AtNext "dst_shadow") (Rd (At "tmp_hspinor" (IAdd (IMul (IAdd (IMul (IC 1) (IC 3)) (IV "col")) (IC 2)) (IV "re"))))])])].

(** [inlineAddSpinReconDir3Plus], generic_spin_recon_inlines.h 967-1020.  [tmp_hspinor] is the local array [tmp_hspinor[4][3][2]], passed in by the caller. *)
Definition inlineAddSpinReconDir3Plus : stmt := seq [
  Ptr "src_shadow" "src" (IC 0);
  Ptr "dst_shadow" "dst" (IC 0);
  Int "re" (IC 0);
  Int "im" (IC 1);
  Int "Ncmpx" (IC 2);
  Int "Nsby2" (IC 2);
  For "site" (IC 0) (IV "n_vec") 1 (seq [
    Ptr "tmp_shadow" "tmp_hspinor" (IC 0);
    For "stream" (IC 0) (IMul (IMul (IV "Nsby2") (IC 3)) (IV "Ncmpx")) 1 (seq [
      Assign "tmp" (Rd (AtNext "src_shadow"));
      Store (AtNext "tmp_shadow") (V "tmp");
      StoreAdd (AtNext "dst_shadow") (V "tmp")]);
    For "col" (IC 0) (IC 3) 1 (seq [
      StoreAdd (AtNext "dst_shadow") (Rd (At "tmp_hspinor" (IAdd (IMul (IAdd (IMul (IC 0) (IC 3)) (IV "col")) (IC 2)) (IV "re"))));
      StoreAdd (AtNext "dst_shadow") (Rd (At "tmp_hspinor" (IAdd (IMul (IAdd (IMul (IC 0) (IC 3)) (IV "col")) (IC 2)) (IV "im"))))]);
    For "col" (IC 0) (IC 3) 1 (seq [
      StoreAdd (AtNext "dst_shadow") (Rd (At "tmp_hspinor" (IAdd (IMul (IAdd (IMul (IC 1) (IC 3)) (IV "col")) (IC 2)) (IV "re"))));
      StoreAdd (AtNext "dst_shadow") (Rd (At "tmp_hspinor" (IAdd (IMul (IAdd (IMul (IC 1) (IC 3)) (IV "col")) (IC 2)) (IV "im"))))])])].

(** [inlineAddSpinReconDir3Minus], generic_spin_recon_inlines.h 1035-1086.  [tmp_hspinor] is the local array [tmp_hspinor[4][3][2]], passed in by the caller. *)
Definition inlineAddSpinReconDir3Minus : stmt := seq [
  Ptr "src_shadow" "src" (IC 0);
  Ptr "dst_shadow" "dst" (IC 0);
  Int "re" (IC 0);
  Int "im" (IC 1);
  Int "Ncmpx" (IC 2);
  Int "Nsby2" (IC 2);
  For "site" (IC 0) (IV "n_vec") 1 (seq [
    Ptr "tmp_shadow" "tmp_hspinor" (IC 0);
    For "stream" (IC 0) (IMul (IMul (IV "Nsby2") (IC 3)) (IV "Ncmpx")) 1 (seq [
      Assign "tmp" (Rd (AtNext "src_shadow"));
      Store (AtNext "tmp_shadow") (V "tmp");
      StoreAdd (AtNext "dst_shadow") (V "tmp")]);
    For "col" (IC 0) (IC 3) 1 (seq [
      StoreSub (AtNext "dst_shadow") (Rd (At "tmp_hspinor" (IAdd (IMul (IAdd (IMul (IC 0) (IC 3)) (IV "col")) (IC 2)) (IV "re"))));
      StoreSub (AtNext "dst_shadow") (Rd (At "tmp_hspinor" (IAdd (IMul (IAdd (IMul (IC 0) (IC 3)) (IV "col")) (IC 2)) (IV "im"))))]);
    For "col" (IC 0) (IC 3) 1 (seq [
      StoreSub (AtNext "dst_shadow") (Rd (At "tmp_hspinor" (IAdd (IMul (IAdd (IMul (IC 1) (IC 3)) (IV "col")) (IC 2)) (IV "re"))));
      StoreSub (AtNext "dst_shadow") (Rd (At "tmp_hspinor" (IAdd (IMul (IAdd (IMul (IC 1) (IC 3)) (IV "col")) (IC 2)) (IV "im"))))])])].


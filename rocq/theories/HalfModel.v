(** The specialised evaluate() for  LatticeHalfFermion = LatticeColorMatrix * LatticeHalfFermion,
    include/scalarsite_generic/qdp_scalarsite_generic_linalg.h:466-540 and
    qdp_scalarsite_generic_linalg_wrapper.h.  Simplifications as in FuseModel.v. *)
From Coq Require Import ZArith String List Bool.
From Verif Require Import Base SetModel EvalModel KernLang KernSu3 FuseModel.
Import ListNotations.
Local Open Scope string_scope.
Local Open Scope Z_scope.

Section Run.
  Context {R : Type} (rO : R) (radd rmul rsub : R -> R -> R) (ropp : R -> R).
  (** The destination, the matrix field, the half fermion: 12, 18, 12 reals per site. *)
  Variable (d l r : ptr).

  (** One macro call, spin component [s] of site [i]. *)
  Definition half_spin (i s : Z) : memory R -> res (memory R) :=
    call rO radd rmul rsub ropp mult_su3_mat_vec
      [("aa", forward l (18 * i)); ("bb", forward r (12 * i + 6 * s)); ("cc", forward d (12 * i + 6 * s))] [].

  (** qdp_scalarsite_generic_linalg_wrapper.h:47-53 and 87-92: the body of the loops. *)
  Definition half_site (i : nat) (m : memory R) : res (memory R) :=
    bind (half_spin (Z.of_nat i) 0 m) (half_spin (Z.of_nat i) 1).

  (** qdp_scalarsite_generic_linalg.h:493-540 with the dispatched calls run in the order [calls];
      ordered_linalg_evaluate_userfunc (wrapper:33-55), unordered_linalg_evaluate_userfunc (wrapper:76-94). *)
  Definition evaluate_half (s : subset) (calls : list (nat * nat * nat)) : memory R -> res (memory R) :=
    in_order (fun c m => let '(lo, hi, _) := c in
      if s_ordRep s
      then in_order half_site (List.seq (lo + Z.to_nat (s_start s)) (hi - lo)) m
      else in_order (fun j m => bind (of_option (nth_error (s_table s) j)) (fun i => half_site i m)) (iterations c) m)
      calls.
End Run.

(** C74: the rewriting of expressions while they are built (adj(a)*b, trace(a*b),
    real(trace(a)), ...) does not change their value. *)
From Coq Require Import ZArith List PeanoNat Bool Lia Ring Ring_theory InitialRing.
From Verif Require Import Base ComplexModel TensorModel TensorSpec ExprModel ExprSpec ExprProofs.
Import ListNotations.
Set Default Timeout 120.

(** Over any commutative ring, for any objects of the leaves' types: if every
    step compiles and the tree built has type t, the expression as written has
    that type and the same value. *)
Theorem C74_rewriting : forall (R : Type) (rO rI : R) (radd rmul rsub : R -> R -> R) (ropp : R -> R),
  ring_theory rO rI radd rmul rsub ropp (@eq R) ->
  forall (env : nat -> @val R) (G : nat -> ty), (forall i, pos (G i) /\ typed (G i) (env i)) ->
  forall e t, compiles G e -> ntyped G (build e) t ->
  let value := eval rO radd rmul rsub ropp env in
  ntyped G (plain e) t /\ eqv t (value (build e)) (value (plain e)).
Proof. intros R rO rI radd rmul rsub ropp Rth env G Henv e t C H. exact (build_ok rO rI radd rmul rsub ropp Rth env G Henv e C t H). Qed.
Print Assumptions C74_rewriting.

(** real(trace(adj(u)*(v*adj(w)))) and traceColor(p*u): all rewritten. *)
Definition case_G (i : nat) : ty := if Nat.eqb i 3 then TM Spin 4 (TM Colour 3 TC) else TS (TM Colour 3 TC).
Definition case1 : src := SReal (STrace (SMul (SAdj (SLeaf 0)) (SMul (SLeaf 1) (SAdj (SLeaf 2))))).
Definition case2 : src := STraceK Colour (SMul (SLeaf 3) (SLeaf 0)).
Example C74_case :
  build case1 = InnerReal (Id (Leaf 0)) (MulAdj (Leaf 1) (Id (Leaf 2))) /\
  build case2 = TraceKMul Colour (Leaf 3) (Leaf 0) /\
  compiles case_G case1 /\ compiles case_G case2 /\
  ntyped case_G (build case1) (TS (TS TR)) /\ ntyped case_G (build case2) (TM Spin 4 (TS TC)) /\
  (forall i, pos (case_G i)).
Proof.
  assert (L0 : ntyped case_G (Leaf 0) (TS (TM Colour 3 TC))) by exact (TyLeaf case_G 0).
  assert (L1 : ntyped case_G (Leaf 1) (TS (TM Colour 3 TC))) by exact (TyLeaf case_G 1).
  assert (L2 : ntyped case_G (Leaf 2) (TS (TM Colour 3 TC))) by exact (TyLeaf case_G 2).
  assert (L3 : ntyped case_G (Leaf 3) (TM Spin 4 (TM Colour 3 TC))) by exact (TyLeaf case_G 3).
  assert (I0 : ntyped case_G (Id (Leaf 0)) (TS (TM Colour 3 TC))) by now constructor.
  assert (I2 : ntyped case_G (Id (Leaf 2)) (TS (TM Colour 3 TC))) by now constructor.
  assert (M : ntyped case_G (MulAdj (Leaf 1) (Id (Leaf 2))) (TS (TM Colour 3 TC)))
    by (eapply TyMulAdj; eauto; reflexivity || exact I).
  assert (P : ntyped case_G (AdjMul (Id (Leaf 0)) (MulAdj (Leaf 1) (Id (Leaf 2)))) (TS (TM Colour 3 TC)))
    by (eapply TyAdjMul; eauto; reflexivity || exact I).
  assert (A0 : ntyped case_G (Adj (Leaf 0)) (TS (TM Colour 3 TC))) by (constructor; [trivial|exact I]).
  assert (A2 : ntyped case_G (Adj (Leaf 2)) (TS (TM Colour 3 TC))) by (constructor; [trivial|exact I]).
  assert (N : ntyped case_G (Inner (Id (Leaf 0)) (MulAdj (Leaf 1) (Id (Leaf 2)))) (trace_ty (TS (TM Colour 3 TC))))
    by (eapply TyInner; eauto).
  assert (NR : ntyped case_G (InnerReal (Id (Leaf 0)) (MulAdj (Leaf 1) (Id (Leaf 2)))) (trace_ty (real_ty (TS (TM Colour 3 TC)))))
    by (eapply TyInnerReal; eauto; reflexivity || exact I).
  assert (Q : ntyped case_G (Mul (Leaf 3) (Leaf 0)) (TM Spin 4 (TM Colour 3 TC))) by (eapply TyMul; eauto).
  assert (K : ntyped case_G (TraceKMul Colour (Leaf 3) (Leaf 0)) (TM Spin 4 (TS TC)))
    by (eapply (TyTraceKMul case_G Colour); eauto; reflexivity || exact I).
  split; [reflexivity|]. split; [reflexivity|].
  split; [cbn; repeat split; eexists; eauto|]. split; [cbn; repeat split; eexists; eauto|]. split; [exact NR|]. split; [exact K|].
  intros i. unfold case_G. destruct (Nat.eqb i 3); cbn; lia.
Qed.
(** Every leaf type has objects. *)
Example C74_case_env : forall i, typed (case_G i)
  (if Nat.eqb i 3 then Mv Spin 4 (fun _ _ => Mv Colour 3 (fun _ _ => Cv (1%Z, 2%Z))) else Sv (Mv Colour 3 (fun _ _ => Cv (3%Z, 4%Z)))).
Proof. intros i. unfold case_G. destruct (Nat.eqb i 3); cbn; auto. Qed.

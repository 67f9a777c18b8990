(** Expression trees at one site and the rewriting done while they are built:
    qdp_optops.h.

    Every C++ function or operator of a site expression returns a node; overloads
    of operator*, trace, traceSpin, traceColor and real on particular node types
    return a fused node instead.  The overloads are chosen on the types of the
    operands, so [build] matches on the outermost node of the operands.

    Simplifications: one site; the leaves are the objects' values there; gamma
    matrices and the quark contractions are modelled elsewhere, and so is
    traceSpin(quarkContract13(..)) (qdp_optops.h 318-331). *)
From Coq Require Import List PeanoNat Bool.
From Verif Require Import Base ComplexModel TensorModel.
Import ListNotations.

(** What the user writes. *)
Inductive src :=
| SLeaf (i : nat)
| SNeg (a : src) | SAdd (a b : src) | SSub (a b : src) | SMul (a b : src)
| SAdj (a : src) | SConj (a : src) | STranspose (a : src)
| STrace (a : src) | STraceK (q : kind) (a : src) | SReal (a : src) | SImag (a : src)
| STimesI (a : src) | STimesMinusI (a : src)
| SOuter (a b : src) | SInner (a b : src).

(** The nodes: PETE's UnaryNode and BinaryNode with the operation of each. *)
Inductive node :=
| Leaf (i : nat)
| Id (a : node)                             (* UnaryNode<OpIdentity,..> *)
| Neg (a : node) | Add (a b : node) | Sub (a b : node) | Mul (a b : node)
| Adj (a : node) | Conj (a : node) | Transpose (a : node)
| Trace (a : node) | TraceK (q : kind) (a : node) | Real (a : node) | Imag (a : node)
| TimesI (a : node) | TimesMinusI (a : node)
| Outer (a b : node) | Inner (a b : node)
| AdjMul (a b : node) | MulAdj (a b : node) | AdjMulAdj (a b : node)
| TraceMul (a b : node) | TraceKMul (q : kind) (a b : node)
| TraceSpinOuter (a b : node)
| RealTrace (a : node) | InnerReal (a b : node).

(** operator*: qdp_optops.h 58-102 (adj(l)*r), 105-148 (l*adj(r)), 150-172
    (adj(l)*adj(r), the most specialised); otherwise the plain node of
    QDPOperators.h. *)
Definition mk_mul (l r : node) : node :=
  match l, r with
  | Adj a, Adj b => AdjMulAdj (Id a) (Id b)
  | Adj a, _ => AdjMul (Id a) r
  | _, Adj b => MulAdj l (Id b)
  | _, _ => Mul l r
  end.
(** trace: qdp_optops.h 242-255 and 302-315. *)
Definition mk_trace (l : node) : node :=
  match l with
  | Mul a b => TraceMul a b
  | AdjMul a b => Inner a b
  | _ => Trace l
  end.
(** traceColor and traceSpin: qdp_optops.h 257-270, 272-285, 287-300. *)
Definition mk_traceK (q : kind) (l : node) : node :=
  match q, l with
  | q, Mul a b => TraceKMul q a b
  | Spin, Outer a b => TraceSpinOuter a b
  | q, _ => TraceK q l
  end.
(** real: qdp_optops.h 334-345 and 347-359. *)
Definition mk_real (l : node) : node :=
  match l with
  | Trace a => RealTrace a
  | Inner a b => InnerReal a b
  | _ => Real l
  end.

(** The tree C++ builds for a source expression. *)
Fixpoint build (e : src) : node :=
  match e with
  | SLeaf i => Leaf i
  | SNeg a => Neg (build a)
  | SAdd a b => Add (build a) (build b)
  | SSub a b => Sub (build a) (build b)
  | SMul a b => mk_mul (build a) (build b)
  | SAdj a => Adj (build a)
  | SConj a => Conj (build a)
  | STranspose a => Transpose (build a)
  | STrace a => mk_trace (build a)
  | STraceK q a => mk_traceK q (build a)
  | SReal a => mk_real (build a)
  | SImag a => Imag (build a)
  | STimesI a => TimesI (build a)
  | STimesMinusI a => TimesMinusI (build a)
  | SOuter a b => Outer (build a) (build b)
  | SInner a b => Inner (build a) (build b)
  end.

Section Eval.
Context {R : Type} (rO : R) (radd rmul rsub : R -> R -> R) (ropp : R -> R).
Variable env : nat -> @val R.

(** forEach over a node: the operator() of each operation (QDPOperators.h and
    qdp_optops.h 19-54, 175-238). *)
Fixpoint eval (e : node) : val :=
  match e with
  | Leaf i => env i
  | Id a => eval a
  | Neg a => vneg ropp (eval a)
  | Add a b => vadd radd (eval a) (eval b)
  | Sub a b => vsub rsub ropp (eval a) (eval b)
  | Mul a b => vmul radd rmul rsub (eval a) (eval b)
  | Adj a => vadj ropp (eval a)
  | Conj a => vconj ropp (eval a)
  | Transpose a => vtranspose (eval a)
  | Trace a => vtrace radd (eval a)
  | TraceK q a => vtraceK radd q (eval a)
  | Real a => vreal (eval a)
  | Imag a => vimag rO (eval a)
  | TimesI a => vtimesI rO ropp (eval a)
  | TimesMinusI a => vtimesMinusI rO ropp (eval a)
  | Outer a b => vouterProduct radd rmul rsub ropp (eval a) (eval b)
  | Inner a b => vlocalInnerProduct radd rmul rsub (eval a) (eval b)
  | AdjMul a b => vadjMultiply radd rmul rsub (eval a) (eval b)
  | MulAdj a b => vmultiplyAdj radd rmul rsub (eval a) (eval b)
  | AdjMulAdj a b => vadjMultiplyAdj radd rmul rsub ropp (eval a) (eval b)
  | TraceMul a b => vtraceMultiply radd rmul rsub (eval a) (eval b)
  | TraceKMul q a b => vtraceKMultiply radd rmul rsub q (eval a) (eval b)
  | TraceSpinOuter a b => vtraceSpinOuterProduct radd rmul rsub ropp (eval a) (eval b)
  | RealTrace a => vrealTrace radd (eval a)
  | InnerReal a b => vlocalInnerProductReal radd rmul (eval a) (eval b)
  end.
End Eval.

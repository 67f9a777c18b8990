(** What an expression means when every operation is applied as written, and
    which expressions are well formed. *)
From Coq Require Import List PeanoNat Bool.
From Verif Require Import Base ComplexModel TensorModel TensorSpec ExprModel.
Import ListNotations.

(** The types of the site functions: [ntyped G e t] when every function called
    while evaluating e exists for the operands it gets and the result has type
    t.  G gives the types of the leaves. *)
Section Typing.
Variable G : nat -> ty.
Inductive ntyped : node -> ty -> Prop :=
| TyLeaf i : ntyped (Leaf i) (G i)
| TyId a t : ntyped a t -> ntyped (Id a) t
| TyNeg a t : ntyped a t -> ntyped (Neg a) t
| TyAdd a b ta tb t : ntyped a ta -> ntyped b tb -> sum_ty ta tb = Some t -> ntyped (Add a b) t
| TySub a b ta tb t : ntyped a ta -> ntyped b tb -> sum_ty ta tb = Some t -> ntyped (Sub a b) t
| TyMul a b ta tb t : ntyped a ta -> ntyped b tb -> prod_ty ta tb = Some t -> ntyped (Mul a b) t
| TyAdj a t : ntyped a t -> square t -> ntyped (Adj a) t
| TyConj a t : ntyped a t -> ntyped (Conj a) t
| TyTranspose a t : ntyped a t -> square t -> ntyped (Transpose a) t
| TyTrace a t : ntyped a t -> square t -> ntyped (Trace a) (trace_ty t)
| TyTraceK q a t t' : ntyped a t -> trK_ty q t = Some t' -> ntyped (TraceK q a) t'
| TyReal a t : ntyped a t -> ntyped (Real a) (real_ty t)
| TyImag a t : ntyped a t -> ntyped (Imag a) (real_ty t)
| TyTimesI a t : ntyped a t -> ntyped (TimesI a) (complex_ty t)
| TyTimesMinusI a t : ntyped a t -> ntyped (TimesMinusI a) (complex_ty t)
| TyOuter a b ta tb t : ntyped a ta -> ntyped b tb -> outer_ty ta tb = Some t -> ntyped (Outer a b) t
| TyInner a b ta tb t : ntyped a ta -> ntyped b tb -> ip_ty ta tb = Some t -> ntyped (Inner a b) (trace_ty t)
| TyAdjMul a b ta tb t : ntyped a ta -> ntyped b tb -> square ta -> iscx ta = iscx tb ->
    prod_ty ta tb = Some t -> ntyped (AdjMul a b) t
| TyMulAdj a b ta tb t : ntyped a ta -> ntyped b tb -> square tb -> iscx ta = iscx tb ->
    prod_ty ta tb = Some t -> ntyped (MulAdj a b) t
| TyAdjMulAdj a b ta tb t : ntyped a ta -> ntyped b tb -> square ta -> square tb -> iscx ta = iscx tb ->
    prod_ty ta tb = Some t -> ntyped (AdjMulAdj a b) t
| TyTraceMul a b ta tb t : ntyped a ta -> ntyped b tb -> square ta -> square tb -> iscx ta = iscx tb ->
    prod_ty ta tb = Some t -> ntyped (TraceMul a b) (trace_ty t)
| TyTraceKMul q a b ta tb t t' : ntyped a ta -> ntyped b tb -> site ta -> site tb -> iscx ta = iscx tb ->
    prod_ty ta tb = Some t -> trK_ty q t = Some t' -> ntyped (TraceKMul q a b) t'
| TyTraceSpinOuter a b n ta tb t : ntyped a (TV Spin n ta) -> ntyped b (TV Spin n tb) ->
    outer_ty ta tb = Some t -> ntyped (TraceSpinOuter a b) (TS t)
| TyRealTrace a t : ntyped a t -> square t -> ntyped (RealTrace a) (trace_ty (real_ty t))
| TyInnerReal a b ta tb t : ntyped a ta -> ntyped b tb -> ip_ty ta tb = Some t -> no_ms ta tb ->
    ntyped (InnerReal a b) (trace_ty (real_ty t)).

(** The expression as written, one node per operation. *)
Fixpoint plain (e : src) : node :=
  match e with
  | SLeaf i => Leaf i
  | SNeg a => Neg (plain a)
  | SAdd a b => Add (plain a) (plain b)
  | SSub a b => Sub (plain a) (plain b)
  | SMul a b => Mul (plain a) (plain b)
  | SAdj a => Adj (plain a)
  | SConj a => Conj (plain a)
  | STranspose a => Transpose (plain a)
  | STrace a => Trace (plain a)
  | STraceK q a => TraceK q (plain a)
  | SReal a => Real (plain a)
  | SImag a => Imag (plain a)
  | STimesI a => TimesI (plain a)
  | STimesMinusI a => TimesMinusI (plain a)
  | SOuter a b => Outer (plain a) (plain b)
  | SInner a b => Inner (plain a) (plain b)
  end.
(** Every step of the expression compiles, with the rewriting. *)
Fixpoint compiles (e : src) : Prop :=
  (exists t, ntyped (build e) t) /\
  match e with
  | SLeaf _ => True
  | SNeg a | SAdj a | SConj a | STranspose a | STrace a | STraceK _ a | SReal a | SImag a
  | STimesI a | STimesMinusI a => compiles a
  | SAdd a b | SSub a b | SMul a b | SOuter a b | SInner a b => compiles a /\ compiles b
  end.
End Typing.

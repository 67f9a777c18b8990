(** C73: the arithmetic of colour, spin and complex objects of any nesting.

    [entry x I J] is the complex number in row I and column J of the matrix that
    x stands for (TensorSpec.v); R is any commutative ring. *)
From Coq Require Import ZArith List PeanoNat Bool Lia Ring Ring_theory InitialRing.
From Verif Require Import Base ComplexModel PropComplex TensorModel TensorSpec TensorProofs TensorLaws TensorTrace TensorPartial.
Import ListNotations.
Set Default Timeout 120.

Section C73.
Context {R : Type} (rO rI : R) (radd rmul rsub : R -> R -> R) (ropp : R -> R).
Context (Rth : ring_theory rO rI radd rmul rsub ropp (@eq R)).
Local Notation cadd := (c_add radd).
Local Notation cmul := (c_mul radd rmul rsub).
Local Notation csub := (c_sub rsub).
Local Notation cneg := (c_neg ropp).
Local Notation cconj := (c_conj ropp).
Local Notation entry := (@entry R rO).
Local Notation number := (@number R rO).
Local Notation csum := (@csum R rO radd).
Local Notation typed := (@typed R).
Local Notation eqv := (@eqv R).
Local Notation add := (vadd radd).
Local Notation sub := (vsub rsub ropp).
Local Notation mul := (vmul radd rmul rsub).
Local Notation adj := (vadj ropp).
Local Notation conj := (vconj ropp).
Local Notation trace := (vtrace radd).
Local Notation localInnerProduct := (vlocalInnerProduct radd rmul rsub).

(** Sums, differences and negatives are taken entry by entry; a scalar added to
    a matrix is that multiple of the unit matrix. *)
Theorem C73_sum : forall a b t x y, sum_ty a b = Some t -> typed a x -> typed b y ->
  typed t (add x y) /\ typed t (sub x y) /\ typed a (vneg ropp x) /\
  forall Is Js I J, dims a Is Js -> dims b Is Js -> inb I Is -> inb J Js ->
    entry (add x y) I J = cadd (entry x I J) (entry y I J) /\
    entry (sub x y) I J = csub (entry x I J) (entry y I J) /\
    entry (vneg ropp x) I J = cneg (entry x I J).
Proof.
  intros a b t x y E Hx Hy.
  destruct (add_ok _ _ _ _ _ _ Rth a b t x y E Hx Hy) as [T1 G1].
  destruct (sub_ok _ _ _ _ _ _ Rth a b t x y E Hx Hy) as [T2 G2].
  destruct (neg_ok _ _ _ _ _ _ Rth a x Hx) as [T3 G3]. repeat split; eauto.
Qed.
(** The product is the matrix product. *)
Theorem C73_product : forall a b t x y, prod_ty a b = Some t -> pos a -> pos b -> typed a x -> typed b y ->
  typed t (mul x y) /\
  forall Is Ks Js I J, dims a Is Ks -> dims b Ks Js -> inb I Is -> inb J Js ->
    entry (mul x y) I J = csum (box Ks) (fun K => cmul (entry x I K) (entry y K J)).
Proof. exact (mul_ok _ _ _ _ _ _ Rth). Qed.
(** It is associative and distributes over sums. *)
Theorem C73_product_laws : forall a b c ab abc x x' y y' z,
  prod_ty a b = Some ab -> prod_ty ab c = Some abc -> pos a -> pos b -> pos c ->
  typed a x -> typed a x' -> typed b y -> typed b y' -> typed c z ->
  eqv abc (mul (mul x y) z) (mul x (mul y z)) /\
  eqv ab (mul (add x x') y) (add (mul x y) (mul x' y)) /\
  eqv ab (mul x (add y y')) (add (mul x y) (mul x y')).
Proof.
  intros. split; [|split].
  - eapply (mul_assoc _ _ _ _ _ _ Rth a b c); eauto.
  - eapply (mul_add_l _ _ _ _ _ _ Rth a b); eauto.
  - eapply (mul_add_r _ _ _ _ _ _ Rth a b); eauto.
Qed.
(** adj, transpose and conj, and what they do to products. *)
Theorem C73_adjoint : forall a x, square a -> typed a x ->
  typed a (adj x) /\ typed a (vtranspose x) /\ typed a (conj x) /\
  eqv a (adj (adj x)) x /\
  forall Is Js I J, dims a Is Js -> inb I Is -> inb J Js ->
    entry (adj x) I J = cconj (entry x J I) /\
    entry (vtranspose x) I J = entry x J I /\
    entry (conj x) I J = cconj (entry x I J).
Proof.
  intros a x Sa Hx.
  destruct (adj_ok _ _ _ _ _ _ Rth a x Sa Hx) as [T1 G1].
  destruct (transpose_ok _ _ _ _ _ _ Rth a x Sa Hx) as [T2 G2].
  destruct (conj_ok _ _ _ _ _ _ Rth a x Hx) as [T3 G3].
  repeat split; eauto. exact (adj_involutive _ _ _ _ _ _ Rth a x Sa Hx).
Qed.
Theorem C73_adjoint_product : forall a b t x y, prod_ty a b = Some t -> pos a -> pos b -> square a -> square b ->
  typed a x -> typed b y ->
  eqv t (adj (mul x y)) (mul (adj y) (adj x)) /\
  eqv t (vtranspose (mul x y)) (mul (vtranspose y) (vtranspose x)) /\
  eqv t (conj (mul x y)) (mul (conj x) (conj y)).
Proof.
  intros. split; [|split].
  - eapply (adj_mul _ _ _ _ _ _ Rth a b); eauto.
  - eapply (transpose_mul _ _ _ _ _ _ Rth a b); eauto.
  - eapply (conj_mul_ok _ _ _ _ _ _ Rth a b); eauto.
Qed.
(** real, imag, timesI and timesMinusI act on every entry. *)
Theorem C73_parts : forall t x, typed t x ->
  typed (real_ty t) (vreal x) /\ typed (real_ty t) (vimag rO x) /\
  typed (complex_ty t) (vtimesI rO ropp x) /\ typed (complex_ty t) (vtimesMinusI rO ropp x) /\
  forall Is Js I J, dims t Is Js -> inb I Is -> inb J Js ->
    entry (vreal x) I J = (fst (entry x I J), rO) /\
    entry (vimag rO x) I J = (snd (entry x I J), rO) /\
    entry (vtimesI rO ropp x) I J = cmul (rO, rI) (entry x I J) /\
    entry (vtimesMinusI rO ropp x) I J = cmul (rO, ropp rI) (entry x I J).
Proof.
  intros t x Hx.
  destruct (real_ok _ _ _ _ _ _ Rth t x Hx) as [T1 G1], (imag_ok _ _ _ _ _ _ Rth t x Hx) as [T2 G2].
  destruct (timesI_ok _ _ _ _ _ _ Rth t x Hx) as [T3 G3], (timesMinusI_ok _ _ _ _ _ _ Rth t x Hx) as [T4 G4].
  repeat split; eauto.
Qed.
(** The trace is the sum of the diagonal entries; products may be exchanged
    under it; realTrace is its real part. *)
Theorem C73_trace : forall a x, square a -> pos a -> typed a x ->
  typed (trace_ty a) (trace x) /\
  number (trace x) = csum (box (rows a)) (fun I => entry x I I) /\
  number (vrealTrace radd x) = (fst (number (trace x)), rO).
Proof.
  intros a x Sa Pa Hx. destruct (trace_ok _ _ _ _ _ _ Rth a x Sa Pa Hx) as [T G].
  destruct (realTrace_num _ _ _ _ _ _ Rth a x Sa Pa Hx) as [_ G2]. auto.
Qed.
Theorem C73_trace_cyclic : forall a b t x y, prod_ty a b = Some t -> pos a -> pos b -> square a -> square b ->
  typed a x -> typed b y -> eqv (trace_ty t) (trace (mul x y)) (trace (mul y x)).
Proof. exact (trace_cyclic _ _ _ _ _ _ Rth). Qed.
(** imagTrace is the imaginary part for complex objects only: for a real one it
    is the trace itself, not zero. *)
Theorem C73_imagTrace : forall a x, square a -> pos a -> typed a x -> iscx a = true ->
  number (vimagTrace radd x) = (snd (number (trace x)), rO).
Proof. intros a x Sa Pa Hx C. now apply (imagTrace_num _ _ _ _ _ _ Rth a). Qed.
Theorem C73_imagTrace_refuted : forall a x, square a -> pos a -> typed a x -> iscx a = false ->
  number (vimagTrace radd x) = number (trace x).
Proof. intros a x Sa Pa Hx C. now apply (imagTrace_real _ _ _ _ _ _ Rth a). Qed.
(** traceSpin and traceColor sum over the index of one level. *)
Theorem C73_partial_trace : forall q t t' x p n, trK_ty q t = Some t' -> level q t = Some (p, n) -> pos t -> typed t x ->
  typed t' (vtraceK radd q x) /\
  forall I J, inb I (rows t') -> inb J (cols t') ->
    entry (vtraceK radd q x) I J = csum (seq 0 n) (fun i => entry x (set_at p i I) (set_at p i J)).
Proof.
  intros q t t' x p n E L P Hx. destruct (traceK_ok _ _ _ _ _ _ Rth q t t' x E P Hx) as [T G]. split; [trivial|]. now apply G.
Qed.
(** The inner product and the norm. *)
Theorem C73_inner : forall a b t x y, ip_ty a b = Some t -> pos a -> pos b -> typed a x -> typed b y ->
  typed (trace_ty t) (localInnerProduct x y) /\
  number (localInnerProduct x y) =
    csum (box (rows t)) (fun I => csum (box (cols t)) (fun J => cmul (cconj (entry x I J)) (entry y I J))) /\
  (no_ms a b -> number (vlocalInnerProductReal radd rmul x y) = (fst (number (localInnerProduct x y)), rO)) /\
  number (vlocalNorm2 radd rmul x) =
    csum (box (rows a)) (fun I => csum (box (cols a)) (fun J => cmul (cconj (entry x I J)) (entry x I J))).
Proof.
  intros a b t x y E Pa Pb Hx Hy. destruct (ip_ok _ _ _ _ _ _ Rth a b t x y E Pa Pb Hx Hy) as [T G].
  split; [trivial|]. split; [trivial|]. split.
  - intros N. now apply (ip_real_num _ _ _ _ _ _ Rth a b t x y).
  - now apply (norm2_ok _ _ _ _ _ _ Rth a x).
Qed.
(** A matrix moves to the other side of an inner product as its adjoint. *)
Theorem C73_inner_adjoint : forall m t t' u v x, prod_ty m t = Some t -> ip_ty t t = Some t' -> pos m -> pos t -> square m ->
  typed m x -> typed t u -> typed t v ->
  eqv (trace_ty t') (localInnerProduct u (mul x v)) (localInnerProduct (mul (adj x) u) v).
Proof. exact (ip_adjoint _ _ _ _ _ _ Rth). Qed.
(** The outer product of two vectors. *)
Theorem C73_outer : forall a b t x y, outer_ty a b = Some t -> typed a x -> typed b y ->
  typed t (vouterProduct radd rmul rsub ropp x y) /\
  forall I J, inb I (rows t) -> inb J (rows t) ->
    entry (vouterProduct radd rmul rsub ropp x y) I J =
    cmul (entry x I (map (fun _ => 0) (cols a))) (cconj (entry y J (map (fun _ => 0) (cols b)))).
Proof. exact (outer_ok _ _ _ _ _ _ Rth). Qed.
End C73.
Print Assumptions C73_sum.
Print Assumptions C73_product.
Print Assumptions C73_product_laws.
Print Assumptions C73_adjoint.
Print Assumptions C73_adjoint_product.
Print Assumptions C73_parts.
Print Assumptions C73_trace.
Print Assumptions C73_trace_cyclic.
Print Assumptions C73_imagTrace.
Print Assumptions C73_imagTrace_refuted.
Print Assumptions C73_partial_trace.
Print Assumptions C73_inner.
Print Assumptions C73_inner_adjoint.
Print Assumptions C73_outer.

(** A propagator (spin 4, colour 3) times a colour matrix times a fermion. *)
Example C73_case :
  let P := TM Spin 4 (TM Colour 3 TC) in let U := TS (TM Colour 3 TC) in let F := TV Spin 4 (TV Colour 3 TC) in
  prod_ty P U = Some P /\ prod_ty P F = Some F /\ prod_ty U F = Some F /\ pos P /\ pos U /\ pos F /\ square P /\
  outer_ty F F = Some P /\ ip_ty F F = Some F /\ trK_ty Spin P = Some (TS (TM Colour 3 TC)) /\
  level Colour P = Some (1, 3) /\ sum_ty P (TS (TS TC)) = Some P /\
  dims P [4; 3] [4; 3] /\ dims U [4; 3] [4; 3] /\ dims F [4; 3] [1; 1].
Proof. cbn. repeat split; lia. Qed.
(** imagTrace of the real unit colour matrix. *)
Example C73_imagTrace_case :
  let one := Sv (Mv Colour 3 (fun i j => Rv (if Nat.eqb i j then 1%Z else 0%Z))) in
  typed (TS (TM Colour 3 TR)) one /\ number 0%Z (vimagTrace Z.add one) = (3%Z, 0%Z).
Proof. cbn. repeat split; trivial. Qed.

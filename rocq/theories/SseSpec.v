From Coq Require Import List Bool Arith NArith ZArith Lia.
From Coq Require Import Ring_theory InitialRing.
From Verif Require Import SseMachine.
Import ListNotations.
Open Scope nat_scope.

(** What the SSE kernels are meant to compute.  Nothing here depends on how the kernels are
    written; only the layout of memory ([mem]) and the arithmetic ([arith]) are shared with
    the model.  Numbers are the elements of any commutative ring. *)

Record cring := CRing {
  num :> Type;
  c0 : num; c1 : num;
  cadd : num -> num -> num; cmul : num -> num -> num;
  csub : num -> num -> num; copp : num -> num;
  claw : ring_theory c0 c1 cadd cmul csub copp eq }.

(** The arithmetic of the machine on such numbers. *)
Definition arith_of (R : cring) : arith R :=
  Arith R (gen_phiZ (c0 R) (c1 R) (cadd R) (cmul R) (copp R)) (cadd R) (csub R) (cmul R).

(** Complex numbers and 3x3 matrices, over anything one can add, subtract and multiply. *)
Section Complex.
  Context {V : Type} (ar : arith V).
  Definition cplx : Type := V * V.
  Definition zadd (x y : cplx) : cplx := (a_add ar (fst x) (fst y), a_add ar (snd x) (snd y)).
  Definition zsub (x y : cplx) : cplx := (a_sub ar (fst x) (fst y), a_sub ar (snd x) (snd y)).
  Definition zmul (x y : cplx) : cplx :=
    (a_sub ar (a_mul ar (fst x) (fst y)) (a_mul ar (snd x) (snd y)),
     a_add ar (a_mul ar (fst x) (snd y)) (a_mul ar (snd x) (fst y))).
  Definition zconj (x : cplx) : cplx := (fst x, a_sub ar (a_ofZ ar 0) (snd x)).
  Definition zscale (a : V) (x : cplx) : cplx := (a_mul ar a (fst x), a_mul ar a (snd x)).

  Definition matrix : Type := nat -> nat -> cplx.
  Definition mmul (A B : matrix) : matrix := fun r c =>
    zadd (zadd (zmul (A r 0) (B 0 c)) (zmul (A r 1) (B 1 c))) (zmul (A r 2) (B 2 c)).
  Definition madj (A : matrix) : matrix := fun r c => zconj (A c r).
  Definition madd (A B : matrix) : matrix := fun r c => zadd (A r c) (B r c).
  Definition msub (A B : matrix) : matrix := fun r c => zsub (A r c) (B r c).
  Definition mscale (a : V) (A : matrix) : matrix := fun r c => zscale a (A r c).
  Definition dag (h : bool) (A : matrix) : matrix := if h then madj A else A.
End Complex.
Arguments cplx : clear implicits. Arguments matrix : clear implicits.

(** A matrix in memory: rows one after the other, real before imaginary part. *)
Definition mat_at {V} (m : mem V) (b o : nat) (A : matrix V) : Prop :=
  forall r c, r < 3 -> c < 3 ->
    m b (o + 6 * r + 2 * c) = Some (fst (A r c)) /\
    m b (o + 6 * r + 2 * c + 1) = Some (snd (A r c)).

(** [n] of them from [b], [o] on. *)
Definition mats_at {V} (m : mem V) (b o n : nat) (F : nat -> matrix V) : Prop :=
  forall i, i < n -> mat_at m b (o + 18 * i) (F i).

(** [len] numbers from [b], [o] on. *)
Definition words_at {V} (m : mem V) (b o len : nat) (f : nat -> V) : Prop :=
  forall j, j < len -> m b (o + j) = Some (f j).

(** Nothing outside the [len] words from [b], [o] on was changed. *)
Definition only {V} (m m' : mem V) (b o len : nat) : Prop :=
  forall b' o', ~ (b' = b /\ o <= o' < o + len) -> m' b' o' = m b' o'.

(** Two arrays of [len] words do not overlap. *)
Definition apart (b o b' o' len : nat) : Prop := b <> b' \/ o + len <= o' \/ o' + len <= o.

(** The three assignments. *)
Inductive assign := OpEq | OpAdd | OpSub.

(** The new value of d in d = X, d += X, d -= X. *)
Definition assigned {V} (ar : arith V) (g : assign) (D X : matrix V) : matrix V :=
  match g with OpEq => X | OpAdd => madd ar D X | OpSub => msub ar D X end.

(** Sum of [n] numbers. *)
Fixpoint total {V} (ar : arith V) (n : nat) (f : nat -> V) : V :=
  match n with 0 => a_ofZ ar 0 | S n' => a_add ar (total ar n' f) (f n') end.

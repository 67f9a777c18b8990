(** Specification of data-parallel assignments and reductions. *)
From Coq Require Import List Arith ZArith Permutation.
From Verif Require Import Base.
Import ListNotations.
Local Open Scope nat_scope.

(** The half-open ranges cover every index below [n] exactly once and nothing else. *)
Definition covers_exactly (n : nat) (calls : list (nat * nat * nat)) : Prop :=
  (forall lo hi t, In (lo, hi, t) calls -> lo <= hi <= n) /\
  forall j, j < n -> exists! t, exists lo hi, In (lo, hi, t) calls /\ lo <= j < hi.

(** [dest'] is [dest] with [val i] stored at the sites of [tab] and nothing else changed. *)
Definition assigned_on {T} (d : T) (tab : list nat) (val : nat -> T) (dest dest' : list T) : Prop :=
  length dest' = length dest /\
  forall i, i < length dest ->
    (In i tab -> nth i dest' d = val i) /\ (~ In i tab -> nth i dest' d = nth i dest d).

(** [expr] depends on the memory only through the element at the site it is evaluated at. *)
Definition reads_own_site {T T1} (d : T) (expr : list T -> nat -> T1) : Prop :=
  forall m m' i, nth i m d = nth i m' d -> expr m i = expr m' i.

(** Every iteration below [n] is given to exactly one thread. *)
Definition assigns_once (n : nat) (chunks : list (list nat)) : Prop :=
  Permutation (concat chunks) (seq 0 n).

(** Commutative monoids. *)
Record comm_monoid {A} (zero : A) (add : A -> A -> A) : Prop := {
  cm_zero : forall a, add zero a = a;
  cm_comm : forall a b, add a b = add b a;
  cm_assoc : forall a b c, add a (add b c) = add (add a b) c }.

(** The sum of a list. *)
Definition total {A} (zero : A) (add : A -> A -> A) (l : list A) : A := fold_right add zero l.

(** The sum of [f] over the box 0 <= c_i < G_i. *)
Fixpoint box_sum {A} (zero : A) (add : A -> A -> A) (G : list nat) (f : list nat -> A) : A :=
  match G with
  | [] => f []
  | g :: G' => total zero add (map (fun i => box_sum zero add G' (fun c => f (i :: c))) (seq 0 g))
  end.

(** [x] is an extremal element of [l]: it occurs and no element is better. *)
Definition extremal {A} (better : A -> A -> bool) (l : list A) (x : A) : Prop :=
  In x l /\ forall y, In y l -> better y x = false.
Record total_preference {A} (better : A -> A -> bool) : Prop := {
  tp_asym : forall a b, better a b = true -> better b a = false;
  tp_trans : forall a b c, better a b = false -> better b c = false -> better a c = false }.

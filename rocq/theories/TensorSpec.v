(** What the nested types mean: an object is a matrix of complex numbers, whose
    rows and columns are numbered by one index per level of nesting.

    A PMatrix level of size n has n rows and n columns; a PVector level n rows
    and one column; a PScalar level stands for a multiple of the unit matrix,
    of whatever size the other operand has. *)
From Coq Require Import List PeanoNat Bool.
From Verif Require Import Base ComplexModel TensorModel.
Import ListNotations.

(** The C++ type of a site: RScalar, RComplex, PScalar, PMatrix, PVector. *)
Inductive ty := TR | TC | TS (t : ty) | TM (k : kind) (n : nat) (t : ty) | TV (k : kind) (n : nat) (t : ty).

(** No level is empty. *)
Fixpoint pos (t : ty) : Prop :=
  match t with
  | TR | TC => True
  | TS t => pos t
  | TM _ n t | TV _ n t => 0 < n /\ pos t
  end.
(** No vector level (adj, transpose and trace exist). *)
Fixpoint square (t : ty) : Prop :=
  match t with TR | TC => True | TS t | TM _ _ t => square t | TV _ _ _ => False end.
(** Are the elements complex? *)
Fixpoint iscx (t : ty) : bool :=
  match t with TR => false | TC => true | TS t | TM _ _ t | TV _ _ t => iscx t end.

(** The type of a product, if there is an operator* for the operands. *)
Fixpoint prod_ty (a b : ty) : option ty :=
  match a, b with
  | TR, TR => Some TR
  | TR, TC | TC, TR | TC, TC => Some TC
  | TS a, TS b => option_map TS (prod_ty a b)
  | TM k n a, TS b => option_map (TM k n) (prod_ty a b)
  | TS a, TM k n b => option_map (TM k n) (prod_ty a b)
  | TM k n a, TM k' n' b => if same k n k' n' then option_map (TM k n) (prod_ty a b) else None
  | TV k n a, TS b => option_map (TV k n) (prod_ty a b)
  | TS a, TV k n b => option_map (TV k n) (prod_ty a b)
  | TM k n a, TV k' n' b => if same k n k' n' then option_map (TV k n) (prod_ty a b) else None
  | _, _ => None
  end.
(** The type of a sum.  A scalar can be added to a matrix when the elements of
    the sum are those of the matrix. *)
Fixpoint ty_eqb (a b : ty) : bool :=
  match a, b with
  | TR, TR | TC, TC => true
  | TS a, TS b => ty_eqb a b
  | TM k n a, TM k' n' b | TV k n a, TV k' n' b => same k n k' n' && ty_eqb a b
  | _, _ => false
  end.
Fixpoint sum_ty (a b : ty) : option ty :=
  match a, b with
  | TR, TR => Some TR
  | TR, TC | TC, TR | TC, TC => Some TC
  | TS a, TS b => option_map TS (sum_ty a b)
  | TM k n a, TM k' n' b => if same k n k' n' then option_map (TM k n) (sum_ty a b) else None
  | TM k n a, TS b =>
      match sum_ty a b with Some t => if ty_eqb t a then Some (TM k n a) else None | None => None end
  | TS a, TM k n b =>
      match sum_ty a b with Some t => if ty_eqb t b then Some (TM k n b) else None | None => None end
  | TV k n a, TV k' n' b => if same k n k' n' then option_map (TV k n) (sum_ty a b) else None
  | _, _ => None
  end.
(** Every level turned into a scalar: the type of a trace. *)
Fixpoint trace_ty (t : ty) : ty :=
  match t with TR => TR | TC => TC | TS t | TM _ _ t | TV _ _ t => TS (trace_ty t) end.
Fixpoint real_ty (t : ty) : ty :=
  match t with TR | TC => TR | TS t => TS (real_ty t) | TM k n t => TM k n (real_ty t) | TV k n t => TV k n (real_ty t) end.
Fixpoint complex_ty (t : ty) : ty :=
  match t with TR | TC => TC | TS t => TS (complex_ty t) | TM k n t => TM k n (complex_ty t) | TV k n t => TV k n (complex_ty t) end.
(** The type of an outer product of two vectors. *)
Fixpoint outer_ty (a b : ty) : option ty :=
  match a, b with
  | TR, TR => Some TR
  | TR, TC | TC, TR | TC, TC => Some TC
  | TS a, TS b => option_map TS (outer_ty a b)
  | TV k n a, TV k' n' b => if same k n k' n' then option_map (TM k n) (outer_ty a b) else None
  | _, _ => None
  end.

(** The operands of an inner product, and their common shape. *)
Fixpoint ip_ty (a b : ty) : option ty :=
  match a, b with
  | TR, TR => Some TR
  | TC, TC => Some TC
  | TS a, TS b => option_map TS (ip_ty a b)
  | TM k n a, TS b => option_map (TM k n) (ip_ty a b)
  | TS a, TM k n b => option_map (TM k n) (ip_ty a b)
  | TM k n a, TM k' n' b => if same k n k' n' then option_map (TM k n) (ip_ty a b) else None
  | TV k n a, TV k' n' b => if same k n k' n' then option_map (TV k n) (ip_ty a b) else None
  | _, _ => None
  end.
(** A matrix level meets a scalar level: localInnerProductReal does not compile
    there (see the model). *)
Fixpoint no_ms (a b : ty) : Prop :=
  match a, b with
  | TM _ _ _, TS _ => False
  | TS a, TS b | TS a, TM _ _ b | TM _ _ a, TM _ _ b | TV _ _ a, TV _ _ b => no_ms a b
  | _, _ => True
  end.

(** The type of traceSpin or traceColor: the outermost matrix level of kind q
    becomes a scalar. *)
Fixpoint trK_ty (q : kind) (t : ty) : option ty :=
  match t with
  | TS t => option_map TS (trK_ty q t)
  | TM k n t => if kind_eqb k q then Some (TS t) else option_map (TM k n) (trK_ty q t)
  | _ => None
  end.
(** Which level that is, and its size. *)
Fixpoint level (q : kind) (t : ty) : option (nat * nat) :=
  match t with
  | TS t => option_map (fun pn => (S (fst pn), snd pn)) (level q t)
  | TM k n t => if kind_eqb k q then Some (0, n) else option_map (fun pn => (S (fst pn), snd pn)) (level q t)
  | _ => None
  end.
(** The p-th index replaced by i. *)
Fixpoint set_at (p i : nat) (l : list nat) : list nat :=
  match p, l with
  | _, [] => []
  | 0, _ :: l => i :: l
  | S p, a :: l => a :: set_at p i l
  end.
(** The matrix and scalar types QDP++ defines: a spin level outside, a colour
    level inside (qdp_defs.h). *)
Definition site (t : ty) : Prop :=
  match t with
  | TS t | TM Spin _ t =>
      match t with
      | TS TR | TS TC | TM Colour _ TR | TM Colour _ TC => True
      | _ => False
      end
  | _ => False
  end.

(** t as a matrix: Is is the list of the numbers of rows, Js that of columns. *)
Fixpoint dims (t : ty) (Is Js : list nat) : Prop :=
  match t, Is, Js with
  | TR, [], [] | TC, [], [] => True
  | TS t, a :: Is, b :: Js => a = b /\ 0 < a /\ dims t Is Js
  | TM _ n t, a :: Is, b :: Js => a = n /\ b = n /\ dims t Is Js
  | TV _ n t, a :: Is, b :: Js => a = n /\ b = 1 /\ dims t Is Js
  | _, _, _ => False
  end.
(** The sizes when a scalar counts as 1 x 1. *)
Fixpoint rows (t : ty) : list nat :=
  match t with TR | TC => [] | TS t => 1 :: rows t | TM _ n t | TV _ n t => n :: rows t end.
Fixpoint cols (t : ty) : list nat :=
  match t with TR | TC => [] | TS t => 1 :: cols t | TM _ n t => n :: cols t | TV _ n t => 1 :: cols t end.

(** All index tuples; an index tuple in range. *)
Fixpoint box (ns : list nat) : list (list nat) :=
  match ns with
  | [] => [[]]
  | n :: ns => flat_map (fun k => map (cons k) (box ns)) (seq 0 n)
  end.
Definition inb (I Is : list nat) : Prop := Forall2 lt I Is.

Section Spec.
Context {R : Type} (rO : R) (radd : R -> R -> R).
Local Notation cx := (R * R)%type.

Fixpoint typed (t : ty) (x : @val R) : Prop :=
  match t, x with
  | TR, Rv _ => True
  | TC, Cv _ => True
  | TS t, Sv v => typed t v
  | TM k n t, Mv k' n' f => k = k' /\ n = n' /\ forall i j, i < n -> j < n -> typed t (f i j)
  | TV k n t, Vv k' n' f => k = k' /\ n = n' /\ forall i, i < n -> typed t (f i)
  | _, _ => False
  end.

(** Two objects of type t with the same elements. *)
Fixpoint eqv (t : ty) (x y : @val R) : Prop :=
  match t, x, y with
  | TR, Rv a, Rv b => a = b
  | TC, Cv a, Cv b => a = b
  | TS t, Sv v, Sv w => eqv t v w
  | TM k n t, Mv k' n' f, Mv k'' n'' g =>
      k = k' /\ n = n' /\ k = k'' /\ n = n'' /\ forall i j, i < n -> j < n -> eqv t (f i j) (g i j)
  | TV k n t, Vv k' n' f, Vv k'' n'' g =>
      k = k' /\ n = n' /\ k = k'' /\ n = n'' /\ forall i, i < n -> eqv t (f i) (g i)
  | _, _, _ => False
  end.

(** The complex number in row I and column J. *)
Fixpoint entry (x : @val R) (I J : list nat) : cx :=
  match x with
  | Rv a => (a, rO)
  | Cv z => z
  | Sv v => if Nat.eqb (hd 0 I) (hd 0 J) then entry v (tl I) (tl J) else (rO, rO)
  | Mv _ _ f => entry (f (hd 0 I) (hd 0 J)) (tl I) (tl J)
  | Vv _ _ f => entry (f (hd 0 I)) (tl I) (tl J)
  | Bad => (rO, rO)
  end.
(** The number in an object all of whose levels are scalars. *)
Fixpoint number (x : @val R) : cx :=
  match x with Rv a => (a, rO) | Cv z => z | Sv v => number v | _ => (rO, rO) end.

Definition csum {A} (l : list A) (f : A -> cx) : cx :=
  fold_right (fun a s => c_add radd (f a) s) (rO, rO) l.

End Spec.

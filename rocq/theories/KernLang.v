(** A small language for the hand-unrolled kernels under include/scalarsite_generic/, and its
    meaning.  The kernels themselves are in KernBlas.v, KernG5.v and KernSpin.v, transcribed statement by
    statement.

    What of C is kept: statements run in order; locals that were never assigned have no
    value; a pointer is a block and an offset, so two parameters may point to the same array;
    a load or store outside the cells that exist is [Undef]; [p[i++]] and [*(p++)] advance
    the index or the pointer.

    Simplified: the numbers are the elements of a commutative ring (no rounding; the casts
    (double) and (REAL) are the identity); int arithmetic does not overflow; the bound of a
    for loop is evaluated once, on entry (no kernel changes it in the loop); the omp pragmas of
    generic_blas_local_*.h are not modelled. *)
From Coq Require Import ZArith List String Bool.
From Verif Require Import Base.
Import ListNotations.
Local Open Scope Z_scope.

(** Integer expressions. *)
Inductive iexp :=
| IV (x : string)
| IC (n : Z)
| IAdd (a b : iexp)
| ISub (a b : iexp)
| IMul (a b : iexp).

(** Cells: [p[i]], [p[i++]] with [i] an int variable, [*(p++)]. *)
Inductive place :=
| At (p : string) (i : iexp)
| AtInc (p i : string)
| AtNext (p : string).

(** Floating point expressions. *)
Inductive exp :=
| V (x : string)
| Rd (l : place)
| Zero
| Add (a b : exp)
| Sub (a b : exp)
| Mul (a b : exp)
| Neg (a : exp).

Inductive stmt :=
| Skip
| Seq (s t : stmt)
| Assign (x : string) (e : exp)                      (* x = e; *)
| Store (l : place) (e : exp)                        (* l = e; *)
| StoreAdd (l : place) (e : exp)                     (* l += e; *)
| StoreSub (l : place) (e : exp)                     (* l -= e; *)
| Int (i : string) (e : iexp)                        (* int i = e;  i = e;  i += ..; *)
| Ptr (p q : string) (e : iexp)                      (* REAL *p = q + e; *)
| IfPos (e : iexp) (s : stmt)                        (* if (e > 0) { s } *)
| For (i : string) (a b : iexp) (step : positive) (s : stmt).  (* for (i = a; i < b; i += step) { s } *)

Definition seq (l : list stmt) : stmt := fold_right Seq Skip l.

Section Meaning.
  Context {R : Type} (rO : R) (radd rmul rsub : R -> R -> R) (ropp : R -> R).

  (** Address: block and offset (in REALs). *)
  Definition ptr := (nat * Z)%type.

  (** [mem b o]: contents of cell [o] of block [b]; [None] where there is no such cell.  A cell
      that was allocated but never written holds some value. *)
  Definition memory := nat -> Z -> option R.

  Record state := mk_state {
    vars : string -> option R;
    ints : string -> option Z;
    ptrs : string -> option ptr;
    mem : memory
  }.

  Definition set {A} (f : string -> option A) (x : string) (a : A) : string -> option A :=
    fun y => if String.eqb y x then Some a else f y.

  Definition set_var (s : state) x v := mk_state (set (vars s) x v) (ints s) (ptrs s) (mem s).
  Definition set_int (s : state) x v := mk_state (vars s) (set (ints s) x v) (ptrs s) (mem s).
  Definition set_ptr (s : state) x v := mk_state (vars s) (ints s) (set (ptrs s) x v) (mem s).
  Definition set_mem (s : state) m := mk_state (vars s) (ints s) (ptrs s) m.

  Definition poke (m : memory) (b : nat) (o : Z) (v : R) : memory :=
    fun b' o' => if Nat.eqb b' b && Z.eqb o' o then Some v else m b' o'.

  Fixpoint ieval (s : state) (e : iexp) : res Z :=
    match e with
    | IV x => of_option (ints s x)
    | IC n => Val n
    | IAdd a b => bind (ieval s a) (fun x => bind (ieval s b) (fun y => Val (x + y)))
    | ISub a b => bind (ieval s a) (fun x => bind (ieval s b) (fun y => Val (x - y)))
    | IMul a b => bind (ieval s a) (fun x => bind (ieval s b) (fun y => Val (x * y)))
    end.

  (** The address of a cell, and the state after its ++. *)
  Definition locate (s : state) (l : place) : res (ptr * state) :=
    match l with
    | At p i =>
        bind (of_option (ptrs s p)) (fun a =>
        bind (ieval s i) (fun k => Val ((fst a, snd a + k), s)))
    | AtInc p i =>
        bind (of_option (ptrs s p)) (fun a =>
        bind (of_option (ints s i)) (fun k => Val ((fst a, snd a + k), set_int s i (k + 1))))
    | AtNext p =>
        bind (of_option (ptrs s p)) (fun a => Val (a, set_ptr s p (fst a, snd a + 1)))
    end.

  Definition load (s : state) (a : ptr) : res R := of_option (mem s (fst a) (snd a)).

  Definition store (s : state) (a : ptr) (v : R) : res state :=
    bind (of_option (mem s (fst a) (snd a))) (fun _ => Val (set_mem s (poke (mem s) (fst a) (snd a) v))).

  Fixpoint eval (s : state) (e : exp) : res (R * state) :=
    match e with
    | V x => bind (of_option (vars s x)) (fun v => Val (v, s))
    | Rd l => bind (locate s l) (fun '(a, s1) => bind (load s1 a) (fun v => Val (v, s1)))
    | Zero => Val (rO, s)
    | Add a b => bind (eval s a) (fun '(x, s1) => bind (eval s1 b) (fun '(y, s2) => Val (radd x y, s2)))
    | Sub a b => bind (eval s a) (fun '(x, s1) => bind (eval s1 b) (fun '(y, s2) => Val (rsub x y, s2)))
    | Mul a b => bind (eval s a) (fun '(x, s1) => bind (eval s1 b) (fun '(y, s2) => Val (rmul x y, s2)))
    | Neg a => bind (eval s a) (fun '(x, s1) => Val (ropp x, s1))
    end.

  (** How often [for (i = a; i < b; i += step)] runs its body. *)
  Definition trips (a b : Z) (step : positive) : nat :=
    Z.to_nat ((b - a + Zpos step - 1) / Zpos step).

  Fixpoint exec (c : stmt) (s : state) : res state :=
    match c with
    | Skip => Val s
    | Seq c1 c2 => bind (exec c1 s) (exec c2)
    | Assign x e => bind (eval s e) (fun '(v, s1) => Val (set_var s1 x v))
    | Store l e =>
        bind (eval s e) (fun '(v, s1) =>
        bind (locate s1 l) (fun '(a, s2) => store s2 a v))
    | StoreAdd l e =>
        bind (eval s e) (fun '(v, s1) =>
        bind (locate s1 l) (fun '(a, s2) =>
        bind (load s2 a) (fun w => store s2 a (radd w v))))
    | StoreSub l e =>
        bind (eval s e) (fun '(v, s1) =>
        bind (locate s1 l) (fun '(a, s2) =>
        bind (load s2 a) (fun w => store s2 a (rsub w v))))
    | Int i e => bind (ieval s e) (fun v => Val (set_int s i v))
    | Ptr p q e =>
        bind (of_option (ptrs s q)) (fun a =>
        bind (ieval s e) (fun k => Val (set_ptr s p (fst a, snd a + k))))
    | IfPos e c1 => bind (ieval s e) (fun v => if 0 <? v then exec c1 s else Val s)
    | For i a b step body =>
        bind (ieval s a) (fun x =>
        bind (ieval s b) (fun y =>
          (fix loop (n : nat) (s : state) : res state :=
             match n with
             | O => Val s
             | S n' =>
                 bind (exec body s) (fun s1 =>
                 bind (of_option (ints s1 i)) (fun k => loop n' (set_int s1 i (k + Zpos step))))
             end) (trips x y step) (set_int s i x)))
    end.

  Definition undef {A} : string -> option A := fun _ => None.

  (** Calling a function: its pointer and int parameters have the values of the arguments
      (the first match counts), everything else is unset. *)
  Fixpoint args {A} (l : list (string * A)) : string -> option A :=
    match l with [] => undef | (x, a) :: l' => set (args l') x a end.

  Definition call (c : stmt) (ps : list (string * ptr)) (is : list (string * Z)) (m : memory) : res memory :=
    bind (exec c (mk_state undef (args is) (args ps) m)) (fun s => Val (mem s)).

End Meaning.
Arguments state R : clear implicits.
Arguments memory R : clear implicits.

(** The specialised evaluate() functions that replace the generic site loop for sums of scaled
    lattice fermions: include/scalarsite_generic/qdp_scalarsite_generic_{blas,cblas,blas_g5}.h and
    the thread functions in the three *_wrapper.h files.

    This file says what a specialisation consists of and how it runs; FuseTable.v lists the 83
    specialisations and the 36 thread functions of the code.

    Simplifications.  The overload resolution of C++ (an evaluate is chosen by the type of the
    expression) is the [s_rhs] of the table.  The calls of one dispatch run one after the other, in
    any order; their interleaving is not modelled (they write disjoint sites).  Debug output and
    profiling hooks are left out.  Temporaries are one block [loc] that is alive during the call. *)
From Coq Require Import ZArith List String Bool.
From Verif Require Import Base SetModel EvalModel KernLang.
Import ListNotations.
Local Open Scope Z_scope.

(** ** Expressions *)

(** OScalar<TScal>, OScalar<CScal>, OLattice<TVec>: real number, complex number, lattice fermion
    (qdp_scalarsite_generic_blas.h:20-32, qdp_scalarsite_generic_cblas.h:14-24). *)
Inductive leaf := LReal | LCplx | LVec.
Inductive unop := OpIdentity | FnChiralProjectPlus | FnChiralProjectMinus | FnTimesI.
Inductive binop := OpAdd | OpSubtract | OpMultiply | OpGammaConstMultiply.
(** The expression trees of include/PETE.h: Reference, UnaryNode, BinaryNode; [GConst] is
    GammaConst<Ns,Ns*Ns-1>. *)
Inductive shape :=
| Ref (k : leaf)
| Un (op : unop) (e : shape)
| Bin (op : binop) (l r : shape)
| GConst.
(** child(), left(), right() *)
Inductive step := C | L | R.
Definition path := list step.

Inductive assign := OpAssign | OpAddAssign | OpSubtractAssign | OpMultiplyAssign | OpDivideAssign.

(** ** Kernels, thread functions, specialisations *)

Record kernel := { k_name : string; k_code : stmt; k_params : list string; k_count : string }.

(** What is handed on: the address of the first real of an element of a lattice object, a
    pointer variable, the object itself, a number, a function, the site table. *)
Inductive item :=
| IElem (x : string) | IPtr (p : string) | IObj (x : string) | INum (k : Z) | IFun (k : kernel) | ITab.

(** ordered_*_evaluate_function: the fields of its argument structure; those advanced by
    [lo * 24]; the kernel (fixed, or one of the fields) and its arguments. *)
Record ordered_fn := {
  of_fields : list string; of_shift : list string;
  of_kernel : kernel + string; of_args : list string }.

(** unordered_*_evaluate_function: the fields, in the order of the constructor; the flag choosing
    between two argument orders, if any; the kernel, its arguments, its site count. *)
Record unordered_fn := {
  uf_fields : list string; uf_flag : option string;
  uf_kernel : kernel + string; uf_then : list item; uf_else : list item; uf_count : item }.

(** How the pointer to a scalar is made: the address of the operand; of a local copy; of a
    local -a, 1/a, 1; of a local complex -a. *)
Inductive sdef := SRef (a : string) | SId (a : string) | SNeg (a : string) | SInv (a : string) | SOne | SNegC (a : string).

(** One evaluate(d, op, rhs, s): the type it is for, the names given to parts of the
    expression, the scalar pointers, the ordered and the unordered call. *)
Record special := {
  s_op : assign;
  s_rhs : shape;
  s_objs : list (string * path);
  s_scal : list (string * sdef);
  s_ord : ordered_fn; s_ord_args : list item;
  s_unord : unordered_fn; s_unord_args : list item }.

Fixpoint assoc {A} (x : string) (l : list (string * A)) : option A :=
  match l with [] => None | (y, a) :: l' => if String.eqb x y then Some a else assoc x l' end.
Definition among (x : string) (l : list string) : bool := existsb (String.eqb x) l.

Section Run.
  Context {R : Type} (rO rI : R) (radd rmul rsub rdiv : R -> R -> R) (ropp : R -> R).
  (** The destination, the operands (by their place in the expression), the block of the local. *)
  Variable (d : ptr) (env : path -> ptr) (loc : nat).

  Definition forward (p : ptr) (k : Z) : ptr := (fst p, snd p + k).

  (** An object by name: d, or a static_cast of a part of the expression. *)
  Definition object (sp : special) (x : string) : res ptr :=
    if String.eqb x "d" then Val d else bind (of_option (assoc x (s_objs sp))) (fun q => Val (env q)).

  (** A scalar pointer variable. *)
  Definition scalar (sp : special) (p : string) : res ptr :=
    bind (of_option (assoc p (s_scal sp))) (fun sd =>
      match sd with SRef a => object sp a | _ => Val (loc, 0) end).

  (** &(x.elem(i).elem(0).elem(0).real()): 24 reals per site. *)
  Definition element (sp : special) (x : string) (i : Z) : res ptr :=
    bind (object sp x) (fun p => Val (forward p (24 * i))).

  Definition kernel_of (k : kernel + string) (fld : string -> option item) : res kernel :=
    match k with
    | inl k => Val k
    | inr f => match fld f with Some (IFun k) => Val k | _ => Undef end
    end.

  Definition launch (k : kernel) (ps : list ptr) (n : Z) (m : memory R) : res (memory R) :=
    if Nat.eqb (List.length ps) (List.length (k_params k))
    then call rO radd rmul rsub ropp (k_code k) (combine (k_params k) ps) [(k_count k, n)] m
    else Undef.

  (** ordered_*_evaluate_function(lo, hi, id, a), with [a] filled by evaluate() on a subset beginning
      at [start]; e.g. qdp_scalarsite_generic_blas_wrapper.h:24-39. *)
  Definition ordered_call (sp : special) (start lo hi : Z) (m : memory R) : res (memory R) :=
    let w := s_ord sp in
    let fld f := assoc f (combine (of_fields w) (s_ord_args sp)) in
    bind (kernel_of (of_kernel w) fld) (fun k =>
    bind (mapM (fun a =>
            bind (of_option (fld a)) (fun it =>
            bind (match it with IElem x => element sp x start | IPtr p => scalar sp p | _ => Undef end) (fun p =>
              Val (if among a (of_shift w) then forward p (lo * 24) else p)))) (of_args w)) (fun ps =>
      launch k ps (hi - lo) m)).

  (** The body of the loop of unordered_*_evaluate_function, at site [i]; e.g.
      qdp_scalarsite_generic_blas_wrapper.h:58-84. *)
  Definition unordered_call (sp : special) (i : Z) (m : memory R) : res (memory R) :=
    let w := s_unord sp in
    let fld f := assoc f (combine (uf_fields w) (s_unord_args sp)) in
    bind (match uf_flag w with
          | None => Val (uf_then w)
          | Some f => match fld f with Some (INum k) => Val (if k =? 0 then uf_else w else uf_then w) | _ => Undef end
          end) (fun l =>
    bind (kernel_of (uf_kernel w) fld) (fun k =>
    bind (mapM (fun it => match it with
            | IElem f => match fld f with Some (IObj x) => element sp x i | _ => Undef end
            | IPtr f => match fld f with Some (IPtr p) => scalar sp p | _ => Undef end
            | _ => Undef end) l) (fun ps =>
    bind (match uf_count w with
          | INum n => Val n
          | IPtr f => match fld f with Some (INum n) => Val n | _ => Undef end
          | _ => Undef end) (fun n =>
      launch k ps n m)))).

  Fixpoint in_order {A} (f : A -> memory R -> res (memory R)) (l : list A) (m : memory R) : res (memory R) :=
    match l with [] => Val m | a :: l' => bind (f a m) (in_order f l') end.

  (** The locals: their values are computed on entry. *)
  Definition read (sp : special) (m : memory R) (a : string) (k : Z) : res R :=
    bind (object sp a) (fun p => of_option (m (fst p) (snd p + k))).
  Definition enter1 (sp : special) (sd : sdef) (m : memory R) : res (memory R) :=
    match sd with
    | SRef _ => Val m
    | SId a => bind (read sp m a 0) (fun v => Val (poke m loc 0 v))
    | SNeg a => bind (read sp m a 0) (fun v => Val (poke m loc 0 (ropp v)))
    | SInv a => bind (read sp m a 0) (fun v => Val (poke m loc 0 (rdiv rI v)))
    | SOne => Val (poke m loc 0 rI)
    | SNegC a => bind (read sp m a 0) (fun v => bind (read sp m a 1) (fun w =>
                   Val (poke (poke m loc 0 (ropp v)) loc 1 (ropp w))))
    end.

  (** The calls made by evaluate(), by the thread they are made on: dispatch_to_threads over
      end()-start()+1 sites if the subset has an ordered representation, over its site table
      otherwise. *)
  Definition total (s : subset) : nat :=
    if s_ordRep s then Z.to_nat (s_end s - s_start s + 1) else List.length (s_table s).

  (** evaluate(d, op, rhs, s) with the dispatched calls run in the order [calls]. *)
  Definition evaluate_special (sp : special) (s : subset) (calls : list (nat * nat * nat)) (m : memory R)
    : res (memory R) :=
    bind (in_order (enter1 sp) (map snd (s_scal sp)) m) (fun m1 =>
    bind (in_order (fun c m => let '(lo, hi, _) := c in
            if s_ordRep s
            then ordered_call sp (s_start s) (Z.of_nat lo) (Z.of_nat hi) m
            else in_order (fun j m => bind (of_option (nth_error (s_table s) j)) (fun i => unordered_call sp (Z.of_nat i) m))
                   (iterations c) m) calls m1) (fun m2 =>
      (* the locals go out of scope *)
      Val (fun b o => if Nat.eqb b loc then m b o else m2 b o))).
End Run.

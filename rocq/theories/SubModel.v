(** Model of the fields narrowed to a subset: include/qdp_outersubtype.h (OSubLattice,
    OSubScalar), include/qdp_qdpsubtype.h (QDPSubType), include/qdp_globalfuncs_subtype.h and
    QDPType::assign(QDPSubType), include/qdp_qdptype.h:374-391.

    One node, one thread (the interleavings of the site loops are the subject of EvalModel.v).
    Memory is a heap of blocks obtained from the allocator; an address is never reused, so an
    access through a dangling pointer is [Undef].  A failing allocation is not modelled.
    A Subset is represented by its site table; the objects keep a pointer to the Subset, whose
    lifetime is not modelled.  All element types are one type [T]. *)
From Coq Require Import List Arith Bool.
From Verif Require Import Base.
Import ListNotations.
Local Open Scope nat_scope.

Section Sub.
  Context {T : Type}.

  (** A variable of the element type; [None]: memory never written. *)
  Definition cell := option T.

  (** Blocks handed out by QDP::Allocator: allocate and free,
      include/qdp_outersubtype.h:141-164, include/qdp_outer.h:413-454. *)
  Record heap := { blocks : nat -> option (list cell); fresh : nat }.
  Definition empty : heap := {| blocks := fun _ => None; fresh := 0 |}.
  Definition set_block (h : heap) (b : nat) (o : option (list cell)) : heap :=
    {| blocks := fun b' => if b' =? b then o else blocks h b'; fresh := fresh h |}.
  Definition alloc (h : heap) (n : nat) : heap * nat :=
    ({| blocks := fun b' => if b' =? fresh h then Some (repeat None n) else blocks h b';
        fresh := S (fresh h) |}, fresh h).
  Definition free (h : heap) (b : nat) : res heap :=
    match blocks h b with Some _ => Val (set_block h b None) | None => Undef end.

  Fixpoint put (l : list cell) (i : nat) (c : cell) : option (list cell) :=
    match l, i with
    | [], _ => None
    | _ :: l', 0 => Some (c :: l')
    | x :: l', S i' => option_map (cons x) (put l' i' c)
    end.

  (** F[i] read and written; outside a live block undefined.  Copying an element that was
      never written copies the indeterminate value. *)
  Definition load (h : heap) (b i : nat) : res cell :=
    match blocks h b with Some l => of_option (nth_error l i) | None => Undef end.
  Definition store (h : heap) (b i : nat) (c : cell) : res heap :=
    match blocks h b with
    | Some l => match put l i c with Some l' => Val (set_block h b (Some l')) | None => Undef end
    | None => Undef
    end.

  (** for(int j=0; j < n; ++j) body. *)
  Fixpoint loop (js : list nat) (body : heap -> nat -> res heap) (h : heap) : res heap :=
    match js with
    | [] => Val h
    | j :: js' => bind (body h j) (loop js' body)
    end.

  (** s->siteTable() and s->numSiteTable() (include/qdp_subset.h:100-104). *)
  Definition tab (ss : list nat) (j : nat) : nat := nth j ss 0.

  (** The data members of OSubLattice, include/qdp_outersubtype.h:216-219; [None]: NULL. *)
  Record sub := { pF : option nat; owns : bool; pS : option (list nat) }.

  (** The variables of a program: OLattice objects (their memory), OSubLattice objects;
      [None] once destroyed. *)
  Record st := { mem : heap; lat : list (option nat); obj : list (option sub) }.

  Definition deref {A} (o : option A) : res A := of_option o.
  Definition the_lat (c : st) (l : nat) : res nat :=
    match nth_error (lat c) l with Some (Some b) => Val b | _ => Undef end.
  Definition the_obj (c : st) (k : nat) : res sub :=
    match nth_error (obj c) k with Some (Some s) => Val s | _ => Undef end.
  Fixpoint put_at {A} (l : list A) (i : nat) (x : A) : list A :=
    match l, i with
    | [], _ => []
    | _ :: l', 0 => x :: l'
    | y :: l', S i' => y :: put_at l' i' x
    end.
  Definition new_obj (c : st) (h : heap) (s : sub) : st :=
    {| mem := h; lat := lat c; obj := obj c ++ [Some s] |}.
  Definition with_mem (c : st) (h : heap) : st :=
    {| mem := h; lat := lat c; obj := obj c |}.
  Definition with_obj (c : st) (h : heap) (k : nat) (o : option sub) : st :=
    {| mem := h; lat := lat c; obj := put_at (obj c) k o |}.

  (** OSubLattice(): include/qdp_outersubtype.h:114. *)
  Definition default_sub : sub := {| pF := None; owns := false; pS := None |}.
  (** OSubLattice(OLattice&, Subset): 97, i.e. a[s] (include/qdp_outer.h:371-372). *)
  Definition view (b : nat) (ss : list nat) : sub :=
    {| pF := Some b; owns := false; pS := Some ss |}.

  (** OSubLattice(Subset, OLattice&): 129-136. *)
  Definition gather (h : heap) (ss : list nat) (a : nat) : res (heap * sub) :=
    let '(h1, b) := alloc h (length ss) in
    bind (loop (seq 0 (length ss))
               (fun h j => bind (load h a (tab ss j)) (store h b j)) h1) (fun h2 =>
    Val (h2, {| pF := Some b; owns := true; pS := Some ss |})).

  (** OSubLattice(const OSubLattice&): 98-109. *)
  Definition copy_sub (h : heap) (a : sub) : res (heap * sub) :=
    if owns a then
      bind (deref (pS a)) (fun ss =>
      bind (deref (pF a)) (fun aF =>
      let '(h1, b) := alloc h (length ss) in
      bind (loop (seq 0 (length ss)) (fun h i => bind (load h aF i) (store h b i)) h1) (fun h2 =>
      Val (h2, {| pF := Some b; owns := true; pS := Some ss |}))))
    else Val (h, {| pF := pF a; owns := false; pS := pS a |}).

  (** setSubset: 117-126. *)
  Definition setSubset (h : heap) (a : sub) (ss : list nat) : res (heap * sub) :=
    match pF a, owns a with
    | Some _, false => Abort
    | pf, _ =>
        bind (match pf with Some b => free h b | None => Val h end) (fun h1 =>
        let '(h2, b) := alloc h1 (length ss) in
        Val (h2, {| pF := Some b; owns := true; pS := Some ss |}))
    end.

  (** ~OSubLattice: 156-164.  free(NULL) cannot occur: an owner has memory. *)
  Definition destroy (h : heap) (a : sub) : res heap :=
    if owns a then bind (deref (pF a)) (free h) else Val h.

  (** What a right-hand side sees of the lattices at site [i] (EvalLeaf1(i)), one cell per
      lattice variable; a destroyed lattice or an unwritten element shows [None]. *)
  Definition peek (h : heap) (lats : list (option nat)) (i : nat) : list cell :=
    map (fun o => match o with
                  | Some b => match load h b i with Val c => c | _ => None end
                  | None => None
                  end) lats.

  (** op(dest, forEach(rhs, EvalLeaf1(i), OpCombine())) for a right-hand side without shifts:
      [upd vals old] is the value stored, from the lattices at this site and the old value;
      [None]: an element was used that has no value. *)
  Definition assignment := list cell -> cell -> cell.
  Definition compute (u : assignment) (vals : list cell) (old : cell) : res cell :=
    match u vals old with Some v => Val (Some v) | None => Undef end.

  (** evaluate(tmp, op, rhs, s) on tmp(getF(), 1.0), and zero_rep(tmp, s):
      include/qdp_parscalar_specific.h:383-415, 627-640; the element of site tab[j]. *)
  Definition evaluate_on (c : st) (b : nat) (ss : list nat) (u : assignment) : res heap :=
    loop (seq 0 (length ss))
         (fun h j => let i := tab ss j in
            bind (load h b i) (fun old =>
            bind (compute u (peek h (lat c) i) old) (store h b i))) (mem c).

  (** evaluate_F, include/qdp_parscalar_specific.h:419-454, and zero_rep_F,
      include/qdp_globalfuncs_subtype.h:172-180: element j gets the value at site tab[j]. *)
  Definition evaluate_F (c : st) (b : nat) (ss : list nat) (u : assignment) : res heap :=
    loop (seq 0 (length ss))
         (fun h j => let i := tab ss j in
            bind (load h b j) (fun old =>
            bind (compute u (peek h (lat c) i) old) (store h b j))) (mem c).

  (** assign(number), assign(Zero), assign(QDPType), assign(QDPExpr), and +=, -=, *=, /=, %=,
      |=, &=, ^=, <<=, >>=: include/qdp_qdpsubtype.h:40-73, 115-487. *)
  Definition assign_expr (c : st) (a : sub) (u : assignment) : res heap :=
    bind (deref (pS a)) (fun ss =>
    bind (deref (pF a)) (fun b =>
    if owns a then evaluate_F c b ss u else evaluate_on c b ss u)).

  (** assign(QDPSubType): include/qdp_qdpsubtype.h:76-112. *)
  Definition assign_sub (h : heap) (a r : sub) : res heap :=
    if owns a && owns r then
      bind (deref (pS a)) (fun ss =>
      bind (deref (pS r)) (fun rs =>
      if negb (length ss =? length rs) then Abort else
      bind (deref (pF a)) (fun b =>
      bind (deref (pF r)) (fun rb =>
      loop (seq 0 (length ss)) (fun h j => bind (load h rb j) (store h b j)) h))))
    else Abort.

  (** OLattice = OSubLattice: include/qdp_outer.h:361-366, include/qdp_qdptype.h:374-391. *)
  Definition lat_assign (h : heap) (b : nat) (r : sub) : res heap :=
    if negb (owns r) then Abort else
    bind (deref (pS r)) (fun rs =>
    bind (deref (pF r)) (fun rb =>
    loop (seq 0 (length rs)) (fun h j => bind (load h rb j) (store h b (tab rs j))) h)).

  (** localInnerProduct and localColorInnerProduct of a sub-lattice and a lattice:
      include/qdp_globalfuncs_subtype.h:31-73, 100-142; [f] is the operation, applied to the
      element of the sub-lattice and that of the lattice. *)
  Definition local_product (h : heap) (f : T -> T -> T) (a : sub) (r : nat) : res (heap * sub) :=
    if negb (owns a) then Abort else
    bind (deref (pS a)) (fun ss =>
    bind (deref (pF a)) (fun b =>
    bind (setSubset h default_sub ss) (fun '(h1, ret) =>
    bind (deref (pF ret)) (fun rb =>
    bind (loop (seq 0 (length ss))
               (fun h j => let i := tab ss j in
                  bind (load h b j) (fun x =>
                  bind (load h r i) (fun y =>
                  match x, y with
                  | Some x, Some y => store h rb j (Some (f x y))
                  | _, _ => Undef
                  end))) h1) (fun h2 => Val (h2, ret)))))).

  (** The statements of a program over these objects. *)
  Inductive op :=
  | NewLattice                                 (* OLattice<T> a;  uninitialised *)
  | DropLattice (l : nat)                      (* its destructor *)
  | Declare                                    (* OSubLattice<T> x; *)
  | View (l : nat) (ss : list nat)             (* a[s] *)
  | Gather (ss : list nat) (l : nat)           (* OSubLattice<T> x(s, a); *)
  | Copy (k : nat)                             (* OSubLattice<T> x(y); *)
  | SetSubset (k : nat) (ss : list nat)        (* x.setSubset(s); *)
  | Drop (k : nat)                             (* x's destructor *)
  | Assign (k : nat) (u : assignment)          (* x = e; x += e; ... *)
  | AssignSub (k r : nat)                      (* x = y; *)
  | AssignLattice (l k : nat)                  (* a = x; *)
  | LocalProduct (k : nat) (f : T -> T -> T) (l : nat).  (* localInnerProduct(x, a) *)

  Definition step (V : nat) (c : st) (o : op) : res st :=
    match o with
    | NewLattice =>
        let '(h, b) := alloc (mem c) V in
        Val {| mem := h; lat := lat c ++ [Some b]; obj := obj c |}
    | DropLattice l =>
        bind (the_lat c l) (fun b => bind (free (mem c) b) (fun h =>
        Val {| mem := h; lat := put_at (lat c) l None; obj := obj c |}))
    | Declare => Val (new_obj c (mem c) default_sub)
    | View l ss => bind (the_lat c l) (fun b => Val (new_obj c (mem c) (view b ss)))
    | Gather ss l =>
        bind (the_lat c l) (fun a => bind (gather (mem c) ss a) (fun '(h, s) =>
        Val (new_obj c h s)))
    | Copy k =>
        bind (the_obj c k) (fun a => bind (copy_sub (mem c) a) (fun '(h, s) =>
        Val (new_obj c h s)))
    | SetSubset k ss =>
        bind (the_obj c k) (fun a => bind (setSubset (mem c) a ss) (fun '(h, s) =>
        Val (with_obj c h k (Some s))))
    | Drop k =>
        bind (the_obj c k) (fun a => bind (destroy (mem c) a) (fun h =>
        Val (with_obj c h k None)))
    | Assign k u =>
        bind (the_obj c k) (fun a => bind (assign_expr c a u) (fun h => Val (with_mem c h)))
    | AssignSub k r =>
        bind (the_obj c k) (fun a => bind (the_obj c r) (fun x =>
        bind (assign_sub (mem c) a x) (fun h => Val (with_mem c h))))
    | AssignLattice l k =>
        bind (the_lat c l) (fun b => bind (the_obj c k) (fun x =>
        bind (lat_assign (mem c) b x) (fun h => Val (with_mem c h))))
    | LocalProduct k f l =>
        bind (the_obj c k) (fun a => bind (the_lat c l) (fun r =>
        bind (local_product (mem c) f a r) (fun '(h, s) => Val (new_obj c h s))))
    end.

  Definition init : st := {| mem := empty; lat := []; obj := [] |}.
  Fixpoint run (V : nat) (c : st) (ops : list op) : res st :=
    match ops with
    | [] => Val c
    | o :: ops' => bind (step V c o) (fun c' => run V c' ops')
    end.

  (** sum(OSubLattice) on one node, include/qdp_globalfuncs_subtype.h:146-163 (the global sum
      that follows is [sum_nodes]). *)
  Definition sum_sub (zero : T) (add : T -> T -> T) (h : heap) (a : sub) : res T :=
    bind (deref (pS a)) (fun ss =>
    bind (deref (pF a)) (fun b =>
    fold_left (fun d j => bind d (fun d => bind (load h b j) (fun x =>
                 match x with Some x => Val (add d x) | None => Undef end)))
              (seq 0 (length ss)) (Val zero))).
  (** QDPInternal::globalSum of the nodes' results. *)
  Definition sum_nodes (zero : T) (add : T -> T -> T) (nodes : list (heap * sub)) : res T :=
    fold_left (fun d n => bind d (fun d => bind (sum_sub zero add (fst n) (snd n)) (fun x =>
                 Val (add d x)))) nodes (Val zero).

  (** pokeColor and pokeSpin with a subset on the left, include/qdp_newops.h:366-395, 441-467,
      516-542, 592-619: the sub-lattice's memory is taken for that of a whole lattice. *)
  Definition poke (c : st) (a : sub) (u : assignment) : res heap :=
    bind (deref (pF a)) (fun b => bind (deref (pS a)) (fun ss => evaluate_on c b ss u)).

  (** OSubScalar, include/qdp_outersubtype.h:18-82: no constructor writes ownsMemory; every
      assignment reads it first (include/qdp_qdpsubtype.h:44-71, 79, 119). *)
  Record sub_scalar := { xF : nat; xowns : option bool; xS : list nat }.
  Definition osubscalar (b : nat) (ss : list nat) : sub_scalar :=
    {| xF := b; xowns := None; xS := ss |}.
  Definition copy_subscalar (a : sub_scalar) : sub_scalar :=
    {| xF := xF a; xowns := None; xS := xS a |}.
  (** [by_F], [by_field]: the two branches. *)
  Definition assign_subscalar {A} (a : sub_scalar) (by_F by_field : res A) : res A :=
    bind (of_option (xowns a)) (fun o => if o then by_F else by_field).
End Sub.
Arguments heap : clear implicits.
Arguments st : clear implicits.
Arguments op : clear implicits.
Arguments cell : clear implicits.
Arguments assignment : clear implicits.

(** Model of the data-parallel loops: include/qdp_dispatch.h and the site loops of
    include/qdp_scalar_specific.h (evaluate, evaluate_F, copymask, zero_rep, sum, sumMulti,
    norm2, innerProduct, globalMax, globalMin, isnan ...).

    Expressions are abstract: [forEach(rhs, EvalLeaf1(i), OpCombine())] is a function of the
    memory and of the site.  Element types and their operations are arguments.  Threads are
    modelled by an interleaving (small-step) semantics; one iteration consists of two atomic
    actions, evaluating the right-hand side and storing the result.  Weak memory is not
    modelled. *)
From Coq Require Import List Arith ZArith Bool.
From Verif Require Import Base LayoutModel SetModel.
Import ListNotations.
Local Open Scope nat_scope.

(** ** dispatch_to_threads *)

(** include/qdp_dispatch.h:39: active_threads_num. *)
Definition active_threads (threads n : nat) : nat := if n <? threads then n else threads.

(** include/qdp_dispatch.h:29-53 (OpenMP version), mathematical integers: the calls
    func(low, high, myId) in the order of the thread numbers; threads with
    myId >= numSiteTable make no call. *)
Definition dispatch (threads n : nat) : list (nat * nat * nat) :=
  let active := active_threads threads n in
  flat_map (fun myId => if myId <? n
                        then [((n * myId) / active, (n * (myId + 1)) / active, myId)]
                        else [])
           (seq 0 threads).

(** The iterations lo <= j < hi of one call, include/qdp_scalar_specific.h:97,135. *)
Definition iterations (call : nat * nat * nat) : list nat :=
  let '(lo, hi, _) := call in seq lo (hi - lo).

(** The same in C's 32-bit int: a product outside the range is undefined. *)
Definition int_max : Z := 2147483647.
Definition int_min : Z := (-2147483648).
Definition fits (x : Z) : bool := (int_min <=? x)%Z && (x <=? int_max)%Z.
Definition imul (x y : Z) : res Z := if fits (x * y) then Val (x * y)%Z else Undef.
(** What a two's complement machine computes on overflow. *)
Definition wrap32 (x : Z) : Z := ((x + 2147483648) mod 4294967296 - 2147483648)%Z.

(** include/qdp_dispatch.h:42 and 49: low and high of thread [myId]. *)
Definition bounds_int (threads n myId : Z) : res (Z * Z) :=
  let active := if (n <? threads)%Z then n else threads in
  bind (imul n myId) (fun a =>
  bind (imul n (myId + 1)) (fun b => Val (Z.quot a active, Z.quot b active))).
Definition bounds_wrap (threads n myId : Z) : Z * Z :=
  let active := if (n <? threads)%Z then n else threads in
  (Z.quot (wrap32 (n * myId)) active, Z.quot (wrap32 (n * (myId + 1))) active).

(** ** Site loops that write a field *)

Section Loop.
  Context {T : Type}.

  Fixpoint set_nth (i : nat) (v : T) (m : list T) : list T :=
    match m, i with
    | [], _ => []
    | _ :: m', 0 => v :: m'
    | x :: m', S i' => x :: set_nth i' v m'
    end.

  (** A thread: iterations still to do, and the value evaluated but not yet stored. *)
  Record thr := { todo : list nat; pend : option (nat * T) }.

  (** [loc j] is the element written by iteration [j] and [rhs m j] the value computed when
      the memory is [m] (it may depend on the old value of the element). *)
  Variable loc : nat -> nat.
  Variable rhs : list T -> nat -> T.

  Inductive lstep : list T * list thr -> list T * list thr -> Prop :=
  | step_load : forall m a j r b,
      lstep (m, a ++ {| todo := j :: r; pend := None |} :: b)
            (m, a ++ {| todo := r; pend := Some (j, rhs m j) |} :: b)
  | step_store : forall m a j v r b,
      lstep (m, a ++ {| todo := r; pend := Some (j, v) |} :: b)
            (set_nth (loc j) v m, a ++ {| todo := r; pend := None |} :: b).

  Inductive lsteps : list T * list thr -> list T * list thr -> Prop :=
  | lsteps_refl : forall s, lsteps s s
  | lsteps_step : forall s s' s'', lstep s s' -> lsteps s' s'' -> lsteps s s''.

  Definition start (chunks : list (list nat)) : list thr :=
    map (fun c => {| todo := c; pend := None |}) chunks.
  Definition finished (ts : list thr) : Prop :=
    Forall (fun t => todo t = [] /\ pend t = None) ts.

  (** A run of the loop from memory [m] with the given assignment of iterations to threads,
      ending in memory [m']. *)
  Definition loop_run (chunks : list (list nat)) (m m' : list T) : Prop :=
    exists ts, lsteps (m, start chunks) (m', ts) /\ finished ts.

  (** One thread executing everything in order. *)
  Definition loop_seq (iters : list nat) (m : list T) : list T :=
    fold_left (fun m j => set_nth (loc j) (rhs m j) m) iters m.
End Loop.

(** evaluate(dest, op, rhs, s), include/qdp_scalar_specific.h:126-140, 197-228 (lattice
    right-hand side) and 90-103, 153-189 (scalar right-hand side).  [expr m i] is the value
    of the expression at site [i]; [op old new] is what op stores.  The iterations are
    distributed by dispatch_to_threads. *)
Definition evaluate_run {T T1} (op : T -> T1 -> T) (expr : list T -> nat -> T1) (dflt : T)
    (threads : nat) (tab : list nat) (dest dest' : list T) : Prop :=
  loop_run (fun j => nth j tab 0)
           (fun m j => let i := nth j tab 0 in op (nth i m dflt) (expr m i))
           (map iterations (dispatch threads (length tab))) dest dest'.

(** The loops with "omp parallel for" (copymask 280-312, zero_rep 430-462, QDP_extract
    1696-1708, QDP_insert 1717-1729): iterations are distributed by OpenMP in a way the
    program does not determine. *)
Definition parfor_run {T} (body : T -> nat -> T) (dflt : T) (chunks : list (list nat))
    (tab : list nat) (dest dest' : list T) : Prop :=
  loop_run (fun j => nth j tab 0) (fun m j => let i := nth j tab 0 in body (nth i m dflt) i)
           chunks dest dest'.
(** evaluate_F, 238-270: element [j] of a plain array gets the value at site tab[j]. *)
Definition evaluate_F_run {T T1} (op : T -> T1 -> T) (expr : nat -> T1) (dflt : T)
    (chunks : list (list nat)) (tab : list nat) (dest dest' : list T) : Prop :=
  loop_run (fun j => j) (fun m j => op (nth j m dflt) (expr (nth j tab 0))) chunks dest dest'.

(** a = shift(a,sign,dir) in the single-process architecture: the map is an expression
    (FnMap, include/qdp_scalar_specific.h:1733-1790, and Map::operator() 1812-1832) that
    reads element goffsets[i] of its argument when site [i] is evaluated. *)
Definition shift_in_place {T} (goff : list nat) (dflt : T) (threads : nat) (a a' : list T) : Prop :=
  evaluate_run (fun _ v => v) (fun m i => nth (nth i goff 0) m dflt) dflt threads
               (seq 0 (length a)) a a'.

(** ** Reductions *)

Section Reduce.
  Context {A : Type}.
  Variables (zero : A) (add : A -> A -> A).

  (** One parallel region of sum / norm2 / innerProduct
      (include/qdp_scalar_specific.h:548-566, 989-1008, 1114-1131): threads take iterations
      from the loop in any way, accumulate privately, and add their partial sum to the shared
      result once, under the critical section.  [pool]: iterations not yet executed;
      [None]: the thread has left the critical section. *)
  Variable val : nat -> A.
  Inductive rstep : (list nat * list (option A) * A) -> (list nat * list (option A) * A) -> Prop :=
  | r_iter : forall p1 i p2 a acc b d,
      rstep (p1 ++ i :: p2, a ++ Some acc :: b, d) (p1 ++ p2, a ++ Some (add acc (val i)) :: b, d)
  | r_merge : forall p a acc b d,
      rstep (p, a ++ Some acc :: b, d) (p, a ++ None :: b, add d acc).
  Inductive rsteps : (list nat * list (option A) * A) -> (list nat * list (option A) * A) -> Prop :=
  | rsteps_refl : forall s, rsteps s s
  | rsteps_step : forall s s' s'', rstep s s' -> rsteps s' s'' -> rsteps s s''.

  (** The region started with shared result [d] ends with [d']. *)
  Definition region (threads : nat) (iters : list nat) (d d' : A) : Prop :=
    rsteps (iters, repeat (Some zero) threads, d) ([], repeat None threads, d').
End Reduce.

(** sum(expr, s), include/qdp_scalar_specific.h:533-573: iterations over the site table; and
    sum(expr), 583-621, over all sites. *)
Definition sum_run {A} zero add (expr : nat -> A) (threads : nat) (tab : list nat) (d : A) : Prop :=
  region zero add (fun j => expr (nth j tab 0)) threads (seq 0 (length tab)) zero d.

(** norm2(multi1d<OLattice>, s), 973-1019, and innerProduct, 1096-1140: one region per array
    element, all adding to the same result.  [expr n i]: localNorm2 or localInnerProduct at
    array element [n], site [i]. *)
Inductive regions {A} (zero : A) add (expr : nat -> nat -> A) (threads : nat) (tab : list nat)
  : list nat -> A -> A -> Prop :=
| regions_nil : forall d, regions zero add expr threads tab [] d d
| regions_cons : forall n ns d d' d'',
    region zero add (fun j => expr n (nth j tab 0)) threads (seq 0 (length tab)) d d' ->
    regions zero add expr threads tab ns d' d'' ->
    regions zero add expr threads tab (n :: ns) d d''.
Definition array_sum_run {A} (zero : A) add expr threads tab (size : nat) (d : A) : Prop :=
  regions zero add expr threads tab (seq 0 size) zero d.

(** sumMulti(expr, ss), 725-785.  [maxthreads] = qdpNumThreads(), [threads] = the number of
    threads of the parallel region; every thread accumulates into its own row of pdest, so
    the interleaving does not matter; a row number beyond the array is undefined. *)
Section SumMulti.
  Context {A : Type}.
  Variables (zero : A) (add : A -> A -> A).
  (** sumMultiKernel, 726-735 *)
  Definition sumMultiKernel (color : list nat) (expr : nat -> A) (row : list A)
      (iters : list nat) : list A :=
    fold_left (fun r i => let j := get color i in set_nth j (add (nth j r zero) (expr i)) r)
              iters row.
  Definition sumMulti (maxthreads threads : nat) (numSubsets : nat) (color : list nat)
      (expr : nat -> A) (vvol : nat) : res (list A) :=
    let pdest0 := repeat (repeat zero numSubsets) maxthreads in
    bind (fold_left
            (fun pd call =>
               bind pd (fun pd =>
               let '(_, _, my_id) := call in
               bind (of_option (nth_error pd my_id)) (fun row =>
               Val (set_nth my_id (sumMultiKernel color expr row (iterations call)) pd))))
            (dispatch threads vvol) (Val pdest0)) (fun pdest =>
    match pdest with
    | [] => Undef                                                         (* 767: pdest[0] *)
    | row0 :: rows =>
        Val (map (fun k => fold_left (fun d row => add d (nth k row zero)) rows (nth k row0 zero))
                 (seq 0 numSubsets))
    end).

  (** sumMulti(multi1d<OLattice>, ss), 877-914: element (k,j) of the result. *)
  Definition sumMultiArray (numSubsets : nat) (color : list nat) (expr : nat -> nat -> A)
      (vvol size : nat) : list (list A) :=
    map (fun k => sumMultiKernel color (expr k) (repeat zero numSubsets) (seq 0 vvol)) (seq 0 size).
End SumMulti.

(** globalMax(OLattice), include/qdp_scalar_specific.h:1319-1348; [gt a b] is a > b.  An empty
    field reads element 0 out of range.  globalMin 1383-1412 is the same with <. *)
Definition globalExt {A} (better : A -> A -> bool) (field : list A) : res A :=
  match field with
  | [] => Undef
  | x :: l => Val (fold_left (fun d dd => if better dd d then dd else d) l x)
  end.

(** The multi-node version (include/qdp_parscalar_specific.h, globalMax): the node-local
    results are combined by QMP_max_double, here the same loop over the nodes. *)
Definition globalExtP {A} (better : A -> A -> bool) (fields : list (list A)) : res A :=
  bind (mapM (globalExt better) fields) (globalExt better).

(** isnan/isinf(OLattice) 1438-1462, 1483-1507 and isfinite/isnormal 1528-1552, 1573-1597;
    globalOr / globalAnd over the nodes. *)
Definition any_site {A} (p : A -> bool) (fields : list (list A)) : bool :=
  fold_left orb (map (fun l => fold_left (fun d x => orb d (p x)) l false) fields) false.
Definition all_sites {A} (p : A -> bool) (fields : list (list A)) : bool :=
  fold_left andb (map (fun l => fold_left (fun d x => andb d (p x)) l true) fields) true.

(** ** The ring reduction, lib/qdp_parscalar_global_sum.cc *)

Section Ring.
  Context {A : Type}.
  Variable add : A -> A -> A.

  (** sumTDirection, lines 36-150, along one machine direction with [P] nodes; [x p] is the
      array of node [p].  One communication round (102-136): every node receives what its
      neighbour in the minus direction has in its send buffer, keeps it as the next row of
      all_data, and will send it on. *)
  Definition ring_round (P : nat) (st : nat -> list A * list (list A)) (p : nat)
    : list A * list (list A) :=
    let recv := fst (st ((p + P - 1) mod P)) in (recv, snd (st p) ++ [recv]).
  Definition ring_comm (P : nat) (x : nat -> list A) : nat -> list A * list (list A) :=
    Nat.iter (P - 1) (ring_round P) (fun p => (x p, [x p])).
  (** 139-148: node [p] adds up, starting at row my_index = p and wrapping around. *)
  Definition ring_sum (P p : nat) (all_data : list (list A)) (dflt : A) (length j : nat) : A :=
    snd (fold_left (fun (s : nat * A) (_ : nat) =>
                      let my_index := (fst s + 1) mod P in
                      (my_index, add (snd s) (nth j (nth my_index all_data []) dflt)))
                   (seq 0 (P - 1)) (p, nth j (nth p all_data []) dflt)).
  Definition sumTDirection (P : nat) (dflt : A) (length : nat) (x : nat -> list A) (p : nat) : list A :=
    map (ring_sum P p (snd (ring_comm P x p)) dflt length) (seq 0 length).

  (** sumT, lines 153-167: all directions of the machine grid [G] in turn; nodes are named by
      their logical coordinates. *)
  Definition sumT (G : list nat) (dflt : A) (length : nat) (x : list nat -> list A)
    : list nat -> list A :=
    fold_left (fun x dim c => sumTDirection (get G dim) dflt length (fun p => x (upd dim p c)) (get c dim))
              (seq 0 (List.length G)) x.
End Ring.

From Coq Require Import List Bool Arith NArith ZArith.
From Verif Require Import EvalModel SseMachine SseKernels SseSpec SseEval SseBlasSpec.
Import ListNotations.
Open Scope nat_scope.

(** Statements on LatticeDiracFermionD and sums over such fields in an SSE build:
    include/scalarsite_sse/qdp_scalarsite_sse_blas_double.h with the functions called by the
    threads, include/scalarsite_sse/qdp_scalarsite_sse_blas_double_wrapper.h.

    A field is a block of memory, site i at word 24*i.  One node only: globalSum is the
    identity.  Each call of a kernel is atomic, as in SseEval. *)

(** The kernels passed to the threads. *)
Inductive vkind := Kaxpyz | Kaxmyz | Kaxpy | Kaxmy | Kaxpbyz | Kaxmbyz | Kaxpby | Kaxmby | Kscal.

Definition vkernel (k : vkind) : kernel :=
  match k with
  | Kaxpyz => vaxpyz4 | Kaxmyz => vaxmyz4 | Kaxpy => vaxpy4 | Kaxmy => vaxmy4
  | Kaxpbyz => vaxpbyz4 | Kaxmbyz => vaxmbyz4 | Kaxpby => vaxpby4 | Kaxmby => vaxmby4
  | Kscal => vscal4
  end.

(** Their arguments for a call that starts at site [s]; the scalars are in block [kb]:
    qdp_scalarsite_sse_blas_double_wrapper.h, func(yptr, aptr, xptr, n) for vaxpy4 and
    vaxmy4, func(zptr, aptr, xptr, yptr, n) for vaxpyz4 and vaxmyz4, func(yptr, aptr, xptr,
    bptr, n) for vaxpby4 and vaxmby4, func(zptr, aptr, xptr, bptr, yptr, n) for vaxpbyz4 and
    vaxmbyz4, vscal4(zptr, aptr, xptr, n); index = lo*24 from the first site. *)
Definition vargs (k : vkind) (kb d x y s : nat) : list (N * (nat * nat)) :=
  match k with
  | Kaxpyz | Kaxmyz => [(p_Out, (d, 24 * s)); (p_scalep, (kb, 0)); (p_InScale, (x, 24 * s)); (p_Add, (y, 24 * s))]
  | Kaxpy | Kaxmy => [(p_Out, (d, 24 * s)); (p_scalep, (kb, 0)); (p_InScale, (x, 24 * s))]
  | Kaxpbyz | Kaxmbyz =>
      [(p_z, (d, 24 * s)); (p_a, (kb, 0)); (p_x, (x, 24 * s)); (p_b, (kb, 1)); (p_y, (y, 24 * s))]
  | Kaxpby | Kaxmby => [(p_y, (d, 24 * s)); (p_a, (kb, 0)); (p_x, (x, 24 * s)); (p_b, (kb, 1))]
  | Kscal => [(p_z, (d, 24 * s)); (p_a, (kb, 0)); (p_x, (x, 24 * s))]
  end.

(** The kernel of a statement.  [inplace]: the subset is ordered and zptr == yptr (lines 233,
    332, 428, 524, 749, 848, 944, 1043, 1124, 1204, 1683, 1801, 1922, 2033, 2145, 2263, 2386,
    2498); in an
    unordered subset the kernel with three fields is always used (262, 362, 457, 552, ...). *)
Definition vkind_of (o : vop) (inplace : bool) : vkind :=
  match o with
  | PlusAX | MinusAX => Kaxpy                                  (* 91, 106, 151, 167, 600, 615, 665, 680 *)
  | AXplusY | YminusAX | XplusY => if inplace then Kaxpy else Kaxpyz
                                                               (* 236, 247, 262, 334, 346, 362, 526, 537, 552, 751-1072, 1126, 1137, 1153 *)
  | AXminusY | XminusY => if inplace then Kaxmy else Kaxmyz    (* 430, 441, 457, 946, 957, 974, 1206, 1217, 1233 *)
  | AX | XA | TimesA | OverA => Kscal                          (* 1291, 1312, 1346, 1361, 1405, 1419, 1442-1500 *)
  | PlusX | MinusX => Kaxpy                                    (* 1502-1628 *)
  | AXplusBY => if inplace then Kaxpby else Kaxpbyz            (* 1630-2090 *)
  | AXminusBY => if inplace then Kaxmby else Kaxmbyz           (* 2091-2545 *)
  end.

(** The field that is multiplied: d itself in d *= a and d /= a (1400, 1419, 1462). *)
Definition operand (o : vop) (d x : nat) : nat := match o with TimesA | OverA => d | _ => x end.

(** d = a*x runs without threads (1258-1315); d = x*a with. *)
Definition vthreads (o : vop) (threads : nat) : nat := match o with AX => 1 | _ => threads end.

Definition is_ordered (s : subset) : bool := match s with Ordered _ _ => true | Listed _ => false end.

Section Blas.
  Context {V : Type} (ar : arith V).

  (** The number aptr points to: a (82, 221, ...), -a (143, 510, 656, 1028), one (1111, 1191,
      1502-1566), -1 (1567-1628), 1/a (1442-1500). *)
  Definition vscalar (o : vop) (a ia : V) : V :=
    match o with
    | MinusAX | YminusAX => a_sub ar (a_ofZ ar 0) a
    | XplusY | XminusY | PlusX => a_ofZ ar 1
    | MinusX => a_ofZ ar (-1)
    | OverA => ia
    | _ => a
    end.

  (** The statement [o] on subset [s], the threads' calls in the order [cs]. *)
  Definition evaluate_vop (o : vop) (s : subset) (kb d x y : nat) (a b ia : V)
      (cs : list (nat * nat)) (m : mem V) : option (mem V) :=
    let k := vkind_of o (is_ordered s && (d =? y)) in
    run_calls ar (vkernel k) (vargs k kb d (operand o d x) y) cs
      (setm (setm m kb 0 (vscalar o a ia)) kb 1 b).

  (** ** norm2, innerProduct, innerProductReal *)

  (** local_sumsq4(sum, vecptr, n), local_vcdot4(sum, y, x, n), local_vcdot_real4(sum, y, x, n)
      with y the first field and x the second (2671-2672, 2791-2794, 2833-2836). *)
  Definition rkernel (w : isa) (r : red) : kernel :=
    match r with Norm2 => local_sumsq4 | Inner => local_vcdot4 w | InnerReal => local_vcdot_real4 end.
  Definition rargs (r : red) (rb ro x y s : nat) : list (N * (nat * nat)) :=
    match r with
    | Norm2 => [(p_sum, (rb, ro)); (p_vecptr, (x, 24 * s))]
    | _ => [(p_sum, (rb, ro)); (p_y, (x, 24 * s)); (p_x, (y, 24 * s))]
    end.

  (** ordered_norm_double_func, ordered_inner_product_double_func (wrapper 361-391): thread
      myId puts the sum over its sites into results[myId], results[2*myId].  Threads without
      sites make no call (qdp_dispatch.h 41). *)
  Fixpoint run_chunks (k : kernel) (r : red) (rb x y a : nat) (cs : list (nat * nat * nat))
      (m : mem V) : option (mem V) :=
    match cs with
    | [] => Some m
    | (lo, hi, myId) :: cs' =>
        match call ar k (rargs r rb (parts r * myId) x y (a + lo)) (hi - lo) m with
        | Some m' => run_chunks k r rb x y a cs' m'
        | None => None
        end
    end.

  (** lsum = results[0]; for(i=1; i < qdpNumThreads(); i++) lsum += results[i]
      (qdp_scalarsite_sse_blas_double.h 2576-2579, 2636-2639; 2676-2681, 2745-2750 with
      results[2*i], results[2*i+1]): part [c], [n] more elements from number [i] on. *)
  Fixpoint add_results (r : red) (rb c i n : nat) (m : mem V) (acc : V) : option V :=
    match n with
    | 0 => Some acc
    | S n' => match m rb (parts r * i + c) with
              | Some v => add_results r rb c (S i) n' m (a_add ar acc v)
              | None => None
              end
    end.

  (** Calls one after the other, each into the temporary [tb], the results added: lines
      2598-2612 (norm2), 2780-2800 (innerProduct), 2880-2900 (innerProductReal) with one
      call per site; 2908-2929, 2935-2980, 2987-3030 (multi1d) with one call per field. *)
  Fixpoint sum_calls (k : kernel) (tb c : nat) (l : list (list (N * (nat * nat)) * nat))
      (m : mem V) (acc : V) : option V :=
    match l with
    | [] => Some acc
    | (args, n) :: l' =>
        match call ar k args n m with
        | Some m' => match m' tb c with
                     | Some v => sum_calls k tb c l' m' (a_add ar acc v)
                     | None => None
                     end
        | None => None
        end
    end.

  (** Part [c] of norm2(x,s), innerProduct(x,y,s) or innerProductReal(x,y,s); [rb]: the
      array ThreadReductions::norm2_results or innerProd_results, [tb]: the temporary; the
      threads' calls in the order [cs].  innerProductReal uses no threads (2816-2877). *)
  Definition reduce (w : isa) (r : red) (s : subset) (threads rb tb x y c : nat)
      (cs : list (nat * nat * nat)) (m : mem V) : option V :=
    match s, r with
    | Ordered a b, InnerReal =>
        match call ar (rkernel w r) (rargs r tb 0 x y a) (S b - a) m with
        | Some m' => m' tb c
        | None => None
        end
    | Ordered a b, _ =>
        match run_chunks (rkernel w r) r rb x y a cs m with
        | Some m' => match m' rb c with
                     | Some v => add_results r rb c 1 (threads - 1) m' v
                     | None => None
                     end
        | None => None
        end
    | Listed tab, _ =>
        sum_calls (rkernel w r) tb c (map (fun i => (rargs r tb 0 x y i, 1)) tab) m (a_ofZ ar 0)
    end.

  (** The same for arrays of fields over the whole lattice ([vol] sites). *)
  Definition reduce_array (w : isa) (r : red) (vol tb c : nat) (l : list (nat * nat)) (m : mem V)
      : option V :=
    sum_calls (rkernel w r) tb c (map (fun p => (rargs r tb 0 (fst p) (snd p) 0, vol)) l) m (a_ofZ ar 0).
End Blas.

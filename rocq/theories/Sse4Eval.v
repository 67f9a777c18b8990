From Coq Require Import List Bool Arith NArith ZArith.
From Verif Require Import EvalModel SseMachine SseSpec SseEval SseBlasSpec SseBlas Sse4Machine Sse4Kernels.
Import ListNotations.
Open Scope nat_scope.

(** Single precision fields in an SSE build: d = l, d += l, d -= l on LatticeColorMatrixF
    (lib/scalarsite_sse/qdp_scalarsite_sse.cc 591-760), and the statements and sums on
    LatticeDiracFermionF (include/scalarsite_sse/qdp_scalarsite_sse_blas.h with the functions
    called by the threads, include/scalarsite_sse/qdp_scalarsite_sse_blas_wrapper.h).

    A field is a block of memory that starts at a multiple of 16 bytes: site i of a field of
    fermions at number 24*i, of colour matrices at number 18*i.  One node only: globalSum is
    the identity.  Each call of a kernel is atomic, as in SseEval.  The products of colour
    matrices (lines 20-590 and 762-1160) call functions of the external library libintrin
    and are not modelled. *)

(** A loop with its preparation. *)
Record kernel4 := K4 { pre4 : list instr4; body4 : list instr4 }.

Section Eval4.
  Context {V : Type} (ar : arith V).

  (** for (; n_loops-- > 0; ) with n_loops = n_4vec, lines 1174, 1180 and the same in the
      other kernels. *)
  Definition call4 (k : kernel4) (args : list (N * (nat * nat))) (n : nat) (m : mem V) : option (mem V) :=
    match run4 ar (pre4 k) (start4 args m) with
    | Some s => match loop4 ar n (body4 k) s with Some s' => Some (mem4 s') | None => None end
    | None => None
    end.

  (** ** Colour matrices *)

  (** The loop over vectors of four numbers: lines 620-622 (=), 677-680 (+=), 735-738 (-=);
      Out is d_ptr_v4sf, In is r_ptr_v4sf. *)
  Definition copy_body (g : assign) : list instr4 :=
    match g with
    | OpEq => [ LoadPs r4_t1 p4_In 0; StorePs p4_Out 0 r4_t1; Bump4 p4_Out 4; Bump4 p4_In 4 ]
    | OpAdd => [ LoadPs r4_t1 p4_Out 0; LoadPs r4_t2 p4_In 0; AddV r4_t3 r4_t1 r4_t2;
                 StorePs p4_Out 0 r4_t3; Bump4 p4_Out 4; Bump4 p4_In 4 ]
    | OpSub => [ LoadPs r4_t1 p4_Out 0; LoadPs r4_t2 p4_In 0; SubV r4_t3 r4_t1 r4_t2;
                 StorePs p4_Out 0 r4_t3; Bump4 p4_Out 4; Bump4 p4_In 4 ]
    end.

  (** *d_ptr = *r_ptr, += or -= (627-629, 685-687, 743-745), [n] times from number [o] on.
      Also the assignment of a matrix, number by number (640, 698, 755; the 18 numbers of
      PScalar<PColorMatrix<RComplex>> in their order in memory). *)
  Fixpoint copy_words (g : assign) (d l o n : nat) (m : mem V) : option (mem V) :=
    match n with
    | 0 => Some m
    | S n' =>
        match m d o, m l o with
        | Some z, Some x =>
            copy_words g d l (S o) n'
              (setm m d o (match g with OpEq => x | OpAdd => a_add ar z x | OpSub => a_sub ar z x end))
        | _, _ => None
        end
    end.

  Fixpoint copy_sites (g : assign) (d l : nat) (tab : list nat) (m : mem V) : option (mem V) :=
    match tab with
    | [] => Some m
    | i :: tab' => match copy_words g d l (18 * i) 18 m with
                   | Some m' => copy_sites g d l tab' m'
                   | None => None
                   end
    end.

  (** The statement: no threads; in an ordered subset total_reals/4 vectors and total_reals%4
      single numbers (609-629, 668-687, 725-745), otherwise one site of the table after the
      other (631-643, 689-701, 747-758). *)
  Definition evaluate_copy4 (g : assign) (s : subset) (d l : nat) (m : mem V) : option (mem V) :=
    match s with
    | Ordered a b =>
        let total_reals := (S b - a) * 3 * 3 * 2 in
        match call4 (K4 [] (copy_body g)) [(p4_Out, (d, 18 * a)); (p4_In, (l, 18 * a))] (total_reals / 4) m with
        | Some m' => copy_words g d l (18 * a + 4 * (total_reals / 4)) (total_reals mod 4) m'
        | None => None
        end
    | Listed tab => copy_sites g d l tab m
    end.

  (** ** Statements on fermions *)

  (** The kernel of a statement: vaxpy3 (lines 93, 109, 159, 174, 238, 254, 321, 337, 482, 498,
      544, 559, 607, 622, 686, 702, 766, 782, 924, 940), vaxmy3 (402, 418, 844, 860), vadd
      (986, 1002, 1347, 1365), vsub (1048, 1064, 1407, 1421), vscal (1111, 1127, 1171, 1187,
      1232, 1247, 1290, 1305), vaxpby3 (1492-1793), vaxmby3 (1866-2171). *)
  Definition kernel_of (o : vop) : kernel4 :=
    match o with
    | PlusAX | MinusAX | AXplusY | YminusAX => K4 vaxpy3_pre vaxpy3_body
    | AXminusY => K4 vaxmy3_pre vaxmy3_body
    | XplusY | PlusX => K4 [] vadd_body
    | XminusY | MinusX => K4 [] vsub_body
    | AX | XA | TimesA | OverA => K4 vscal_pre vscal_body
    | AXplusBY => K4 vaxpby3_pre vaxpby3_body
    | AXminusBY => K4 vaxmby3_pre vaxmby3_body
    end.

  (** Its arguments for a call that starts at site [s]; the scalars are in block [kb].
      func(yptr, aptr, xptr, yptr, n) for d += a*x; func(zptr, aptr, xptr, yptr, n);
      func(zptr, xptr, yptr, n) for x+y and x-y; func(yptr, yptr, xptr, n) for d += x and
      d -= x; vscal(zptr, aptr, xptr, n) with xptr = zptr for d *= a and d /= a;
      func(zptr, aptr, xptr, bptr, yptr, n). *)
  Definition args_of (o : vop) (kb d x y s : nat) : list (N * (nat * nat)) :=
    match o with
    | PlusAX | MinusAX =>
        [(p4_Out, (d, 24 * s)); (p4_scalep, (kb, 0)); (p4_InScale, (x, 24 * s)); (p4_Add, (d, 24 * s))]
    | AXplusY | YminusAX =>
        [(p4_Out, (d, 24 * s)); (p4_scalep, (kb, 0)); (p4_InScale, (x, 24 * s)); (p4_Add, (y, 24 * s))]
    | AXminusY =>
        [(p4_Out, (d, 24 * s)); (p4_scalep, (kb, 0)); (p4_InScale, (x, 24 * s)); (p4_Sub, (y, 24 * s))]
    | XplusY | XminusY => [(p4_Out, (d, 24 * s)); (p4_In1, (x, 24 * s)); (p4_In2, (y, 24 * s))]
    | PlusX | MinusX => [(p4_Out, (d, 24 * s)); (p4_In1, (d, 24 * s)); (p4_In2, (x, 24 * s))]
    | AX | XA => [(p4_Out, (d, 24 * s)); (p4_scalep, (kb, 0)); (p4_In, (x, 24 * s))]
    | TimesA | OverA => [(p4_Out, (d, 24 * s)); (p4_scalep, (kb, 0)); (p4_In, (d, 24 * s))]
    | AXplusBY | AXminusBY =>
        [(p4_Out, (d, 24 * s)); (p4_a, (kb, 0)); (p4_x, (x, 24 * s)); (p4_b, (kb, 1)); (p4_y, (y, 24 * s))]
    end.

  (** The number aptr points to: a, or -a (151, 473, 598, 915), or 1/a (1283). *)
  Definition scalar_of (o : vop) (a ia : V) : V :=
    match o with
    | MinusAX | YminusAX => a_sub ar (a_ofZ ar 0) a
    | OverA => ia
    | _ => a
    end.

  Fixpoint run_calls4 (k : kernel4) (args : nat -> list (N * (nat * nat))) (cs : list (nat * nat))
      (m : mem V) : option (mem V) :=
    match cs with
    | [] => Some m
    | (s, n) :: cs' =>
        match call4 k (args s) n m with
        | Some m' => run_calls4 k args cs' m'
        | None => None
        end
    end.

  (** The statement, the threads' calls in the order [cs]. *)
  Definition evaluate_vop4 (o : vop) (kb d x y : nat) (a b ia : V) (cs : list (nat * nat)) (m : mem V)
      : option (mem V) :=
    run_calls4 (kernel_of o) (args_of o kb d x y) cs (setm (setm m kb 0 (scalar_of o a ia)) kb 1 b).

  (** ** Sums over fermions *)

  Definition then4 (s : option (st4 V)) (f : st4 V -> option (st4 V)) : option (st4 V) :=
    match s with Some s' => f s' | None => None end.

  (** local_sumsq_24_48 (1356-1556): the loop runs n_4vec-1 times, the last one is after it. *)
  Definition local_sumsq (args : list (N * (nat * nat))) (n : nat) (m : mem V) : option (st4 V) :=
    then4 (run4 ar sumsq_pre (start4 args m)) (fun s1 =>
    then4 (loop4 ar (n - 1) sumsq_body s1) (fun s2 =>
    then4 (run4 ar sumsq_last s2) (run4 ar sumsq_tail))).

  (** local_vcdot (1559-1658) and local_vcdot_real (1661-1747): nothing but the zeros if
      n_3vec > 0 fails (1585, 1684). *)
  Definition local_dot (zero pre body last store : list instr4)
      (args : list (N * (nat * nat))) (n : nat) (m : mem V) : option (st4 V) :=
    then4 (run4 ar zero (start4 args m)) (fun s1 =>
    then4 (if 0 <? n then
             then4 (run4 ar pre s1) (fun s2 => then4 (loop4 ar (n - 1) body s2) (run4 ar last))
           else Some s1) (run4 ar store)).

  (** One call for [n] sites from [s] on; the results go to number [ro] of block [rb] (the
      imaginary part behind the real one).  n_3vec is four times the number of sites (2300,
      2342, 2365, ...). *)
  Definition sum_call (r : red) (rb ro x y s n : nat) (m : mem V) : option (mem V) :=
    let res := match r with
      | Norm2 => local_sumsq [(p4_Out, (rb, ro)); (p4_num, (x, 24 * s))] n m
      | Inner => local_dot vcdot_zero vcdot_pre vcdot_body vcdot_last vcdot_store
                   [(p4_Out_re, (rb, ro)); (p4_Out_im, (rb, ro + 1)); (p4_V1, (x, 24 * s)); (p4_V2, (y, 24 * s))]
                   (n * 4) m
      | InnerReal => local_dot vcdot_real_zero vcdot_real_pre vcdot_real_body vcdot_real_last vcdot_real_store
                   [(p4_Out, (rb, ro)); (p4_V1, (x, 24 * s)); (p4_V2, (y, 24 * s))] (n * 4) m
      end in
    match res with Some s' => Some (mem4 s') | None => None end.

  (** ordered_norm_single_func (wrapper 391-399): thread myId puts its sum into
      results[myId]. *)
  Fixpoint norm_chunks (rb x a : nat) (cs : list (nat * nat * nat)) (m : mem V) : option (mem V) :=
    match cs with
    | [] => Some m
    | (lo, hi, myId) :: cs' =>
        match sum_call Norm2 rb myId x x (a + lo) (hi - lo) m with
        | Some m' => norm_chunks rb x a cs' m'
        | None => None
        end
    end.

  (** Calls one after the other into the temporary [tb], the results added. *)
  Fixpoint add_calls (r : red) (tb c : nat) (l : list (nat * nat * nat * nat)) (m : mem V) (acc : V)
      : option V :=
    match l with
    | [] => Some acc
    | (x, y, s, n) :: l' =>
        match sum_call r tb 0 x y s n m with
        | Some m' => match m' tb c with
                     | Some v => add_calls r tb c l' m' (a_add ar acc v)
                     | None => None
                     end
        | None => None
        end
    end.

  (** Part [c] of norm2(x,s) (2202-2250; over the whole lattice 2252-2278), innerProduct(x,y,s)
      (2320-2376, 2282-2316) and innerProductReal(x,y,s) (2420-2468, 2382-2417); [rb]: the
      array ThreadReductions::norm2_results; the threads' calls in the order [cs].  The inner
      products use no threads. *)
  Definition reduce4 (r : red) (s : subset) (threads rb tb x y c : nat)
      (cs : list (nat * nat * nat)) (m : mem V) : option V :=
    match s, r with
    | Ordered a b, Norm2 =>
        match norm_chunks rb x a cs m with
        | Some m' => match m' rb 0 with
                     | Some v => add_results ar Norm2 rb 0 1 (threads - 1) m' v
                     | None => None
                     end
        | None => None
        end
    | Ordered a b, _ =>
        match sum_call r tb 0 x y a (S b - a) m with
        | Some m' => m' tb c
        | None => None
        end
    | Listed tab, _ => add_calls r tb c (map (fun i => (x, y, i, 1)) tab) m (a_ofZ ar 0)
    end.

  (** The same for arrays of fields: norm2 2474-2545, innerProduct 2547-2667, innerProductReal
      2670-2775; without a subset the whole lattice is meant. *)
  Definition reduce_array4 (r : red) (s : subset) (tb c : nat) (l : list (nat * nat)) (m : mem V) : option V :=
    add_calls r tb c
      (flat_map (fun p => match s with
                          | Ordered a b => [(fst p, snd p, a, S b - a)]
                          | Listed tab => map (fun i => (fst p, snd p, i, 1)) tab
                          end) l) m (a_ofZ ar 0).
End Eval4.

From Coq Require Import List Bool Arith NArith ZArith.
From Verif Require Import EvalModel SseMachine SseKernels SseSpec.
Import ListNotations.
Open Scope nat_scope.

(** Statements on LatticeColorMatrixD in an SSE build: the specialisations of evaluate in
    lib/scalarsite_sse/qdp_scalarsite_linalg_double.cc and the products of two single
    matrices in include/scalarsite_sse/qdp_scalarsite_sse_linalg_double.h.

    A field is a block of memory, site i at word 18*i (&elem(i).elem().elem(0,0).real());
    the storage of a field is a multiple of 16 (QDP_ALIGNMENT_SIZE).  Each call of a kernel
    is atomic: interleavings of two threads inside their kernels are not modelled. *)

(** A subset: consecutive sites (hasOrderedRep) or a site table. *)
Inductive subset := Ordered (first last : nat) | Listed (tab : list nat).

(** The kernels used for d = X*Y, d += X*Y and d -= X*Y; [hl], [hr]: X, Y is the adjoint of
    its field.  lib/scalarsite_sse/qdp_scalarsite_linalg_double.cc 99, 106 (=), 143, 150 (adj
    on the left), 189, 197 (on the right), 235, 242 (on both); 340, 345, 385, 391, 430, 436,
    477, 485 (+=); 758, 766, 806, 814, 853, 860, 900, 907 (-=). *)
Definition product_kernel (g : assign) (hl hr : bool) (w : isa) : kernel :=
  match g with
  | OpEq => match hl, hr with
            | false, false => ssed_m_eq_mm w | true, false => ssed_m_eq_hm w
            | false, true => ssed_m_eq_mh w | true, true => ssed_m_eq_hh w
            end
  | _ => match hl, hr with
         | false, false => ssed_m_peq_amm w | true, false => ssed_m_peq_ahm w
         | false, true => ssed_m_peq_amh w | true, true => ssed_m_peq_ahh w
         end
  end.

(** The constant passed to the kernel: one = 1 (333, 378, 423, 468) or mone = -1 (749, 799,
    846, 892). *)
Definition factor (g : assign) : Z := match g with OpSub => -1 | _ => 1 end.

(** The arguments: func(dm,lm,rm,n) (42, 71) for =, func(dm,c,lm,rm,n) (281, 313) else; the
    parameters are called m3, a, m2, m1 in the kernels. *)
Definition product_args (g : assign) (kb d l r s : nat) : list (N * (nat * nat)) :=
  match g with
  | OpEq => [(p_m3, (d, 18 * s)); (p_m2, (l, 18 * s)); (p_m1, (r, 18 * s))]
  | _ => [(p_m3, (d, 18 * s)); (p_a, (kb, 0)); (p_m2, (l, 18 * s)); (p_m1, (r, 18 * s))]
  end.

(** d = X, d += X, d -= X for a single field: lines 562-596, 655-690, 695-729. *)
Definition copy_kernel (g : assign) : kernel :=
  match g with OpEq => ssed_m_eq_scal_m | OpAdd => ssed_m_peq_m | OpSub => ssed_m_meq_m end.
Definition copy_args (g : assign) (kb d l s : nat) : list (N * (nat * nat)) :=
  match g with
  | OpEq => [(p_m2, (d, 18 * s)); (p_a, (kb, 0)); (p_m1, (l, 18 * s))]
  | _ => [(p_m2, (d, 18 * s)); (p_m1, (l, 18 * s))]
  end.

(** The calls of the kernel, (first site, number of sites): dispatch_to_threads gives thread
    chunks [lo, hi); in an ordered subset a chunk is one call (lines 30-43), otherwise every
    site of the chunk is (65-72). *)
Definition calls (threads : nat) (s : subset) : list (nat * nat) :=
  match s with
  | Ordered a b =>
      map (fun c => let '(lo, hi, _) := c in (a + lo, hi - lo)) (dispatch threads (S b - a))
  | Listed tab =>
      flat_map (fun c => let '(lo, hi, _) := c in
                         map (fun j => (nth j tab 0, 1)) (seq lo (hi - lo)))
               (dispatch threads (length tab))
  end.

Section Eval.
  Context {V : Type} (ar : arith V).

  (** The calls, one after the other. *)
  Fixpoint run_calls (k : kernel) (args : nat -> list (N * (nat * nat)))
      (cs : list (nat * nat)) (m : mem V) : option (mem V) :=
    match cs with
    | [] => Some m
    | (s, n) :: cs' =>
        match call ar k (args s) n m with
        | Some m' => run_calls k args cs' m'
        | None => None
        end
    end.

  (** d[s] = X*Y etc., the calls in the order [cs]; the local constant is in block [kb]. *)
  Definition evaluate_product (w : isa) (g : assign) (hl hr : bool) (kb d l r : nat)
      (cs : list (nat * nat)) (m : mem V) : option (mem V) :=
    run_calls (product_kernel g hl hr w) (product_args g kb d l r) cs
      (setm m kb 0 (a_ofZ ar (factor g))).

  (** d[s] = X etc. *)
  Definition evaluate_copy (g : assign) (kb d l : nat) (cs : list (nat * nat)) (m : mem V)
      : option (mem V) :=
    run_calls (copy_kernel g) (copy_args g kb d l) cs (setm m kb 0 (a_ofZ ar 1)).

  (** operator*, adjMultiply, multiplyAdj and adjMultiplyAdj of two matrices,
      include/scalarsite_sse/qdp_scalarsite_sse_linalg_double.h 42-300: the result is a new
      object at [d], and nothing is known about the alignment. *)
  Definition site_kernel (hl hr : bool) (w : isa) : kernel :=
    match hl, hr with
    | false, false => ssed_m_eq_mm_u w | true, false => ssed_m_eq_hm_u w
    | false, true => ssed_m_eq_mh_u w | true, true => ssed_m_eq_hh_u w
    end.
  Definition site_product (w : isa) (hl hr : bool) (d l r : nat * nat) (m : mem V)
      : option (mem V) :=
    call ar (site_kernel hl hr w) [(p_m3, d); (p_m2, l); (p_m1, r)] 1 m.
End Eval.

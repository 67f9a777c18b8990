From Coq Require Import List Bool Arith NArith ZArith.
From Verif Require Import SseMachine Sse4Machine.
Import ListNotations.
Open Scope nat_scope.

(** The kernels for spin projections and reconstructions of SSE builds
    (include/scalarsite_sse/sse_spin_proj_inlines.h, sse_spin_recon_inlines.h) use the
    instructions of [Sse4Machine] and two more. *)
Inductive instrs :=
| I4 (i : instr4)
| MovPs (d a : N)                      (* vd.vector = va.vector *)
| SetPs (d : N) (z0 z1 z2 z3 : Z).     (* vd.floats[0] = z0; ...; vd.floats[3] = z3 *)

(** The pointers src_shadow and dst_shadow (sse_spin_proj_inlines.h 45-46 and alike). *)
Definition ps_src : N := 0%N.
Definition ps_dst : N := 1%N.

(** The three parts of a kernel: before the loop, the loop's body, after the loop. *)
Record kernel5 := Kernel5 { k_pre : list instrs; k_body : list instrs; k_last : list instrs }.

(** The operations of the two files; the four directions. *)
Inductive spin_op := Project | Reconstruct | AddReconstruct.
Inductive dirn := Dir0 | Dir1 | Dir2 | Dir3.

(** for(unsigned int site=0; site < n_vec-1; site++): n_vec is unsigned, so that the number
    of iterations is n_vec-1 modulo 2^32 (sse_spin_proj_inlines.h 60 and alike). *)
Definition iterations (n : N) : nat := N.to_nat ((n + (2 ^ 32 - 1)) mod 2 ^ 32).

Section Machine5.
  Context {V : Type}.
  Variable ar : arith V.

  (** One instruction; the members of union SSEVec are the four numbers of the vector
      (include/qdp_sse_intrin.h 8-11). *)
  Definition exec5 (i : instrs) (s : st4 V) : option (st4 V) :=
    match i with
    | I4 i => exec4 ar i s
    | MovPs d a =>
        match regs4 s a with
        | Some v => Some (St4 (set4 (regs4 s) d v) (ptrs4 s) (mem4 s))
        | None => None
        end
    | SetPs d z0 z1 z2 z3 =>
        Some (St4 (set4 (regs4 s) d (map (a_ofZ ar) [z0; z1; z2; z3])) (ptrs4 s) (mem4 s))
    end.

  Fixpoint run5 (l : list instrs) (s : st4 V) : option (st4 V) :=
    match l with
    | [] => Some s
    | i :: l' => match exec5 i s with Some s' => run5 l' s' | None => None end
    end.

  Fixpoint loop5 (n : nat) (l : list instrs) (s : st4 V) : option (st4 V) :=
    match n with
    | 0 => Some s
    | S n' => match run5 l s with Some s' => loop5 n' l s' | None => None end
    end.

  (** The call of a kernel with pointers to [o] in array [x] and to [p] in array [d] and
      n_vec = [n]: the memory afterwards (sse_spin_proj_inlines.h 26-186 and alike). *)
  Definition spin_call (k : kernel5) (x o d p : nat) (n : N) (m : mem V) : option (mem V) :=
    match run5 (k_pre k) (start4 [(ps_src, (x, o)); (ps_dst, (d, p))] m) with
    | Some s1 =>
        match loop5 (iterations n) (k_body k) s1 with
        | Some s2 => match run5 (k_last k) s2 with Some s3 => Some (mem4 s3) | None => None end
        | None => None
        end
    | None => None
    end.
End Machine5.

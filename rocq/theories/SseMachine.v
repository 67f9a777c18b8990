From Coq Require Import List Bool Arith NArith ZArith Lia.
Import ListNotations.
Open Scope nat_scope.

(** The SSE instructions used by the double precision kernels of SSE builds
    (lib/scalarsite_sse/*_double.cc, include/scalarsite_sse/*_double.h).  A register of
    type __m128d is a pair of numbers (low, high); pointers to REAL64 point into blocks
    of memory.  Numbers are elements of any type with the operations in [arith]: rounding
    is not modelled. *)

(** The instruction set the library was configured for (QDP_USE_SSE3, for instance
    lib/scalarsite_sse/sse_linalg_m_eq_mm_double.cc 15 and 48). *)
Inductive isa := SSE2 | SSE3.

(** One statement of a kernel.  The names are those of the intrinsics; the comments say
    which. *)
Inductive instr :=
| Load (aligned : bool) (d p : N) (o : nat)   (* d = _mm_load_pd(p+o) / _mm_loadu_pd(p+o) *)
| LoadSd (d p : N) (o : nat)                  (* d = _mm_load_sd(p+o) *)
| SetZero (d : N)                             (* d = _mm_setzero_pd() *)
| SetPd (d : N) (hi lo : Z)                   (* d = _mm_set_pd(hi,lo) *)
| MulPd (d a b : N) | AddPd (d a b : N) | SubPd (d a b : N)
| HAddPd (d a b : N) | HSubPd (d a b : N)     (* _mm_hadd_pd, _mm_hsub_pd *)
| Shuffle (d a b : N) (imm : nat)             (* d = _mm_shuffle_pd(a,b,imm) *)
| Store (aligned : bool) (p : N) (o : nat) (r : N) (* _mm_store_pd, _mm_stream_pd / _mm_storeu_pd *)
| StoreL (p : N) (o : nat) (r : N)            (* _mm_storel_pd *)
| StoreH (p : N) (o : nat) (r : N)            (* _mm_storeh_pd *)
| MovePtr (p q : N)                           (* REAL64* p = q *)
| Bump (p : N) (k : nat).                     (* p += k *)

(** Finite maps from variables to values. *)
Fixpoint get {A} (k : N) (l : list (N * A)) : option A :=
  match l with
  | [] => None
  | (k', v) :: r => if N.eqb k k' then Some v else get k r
  end.

Fixpoint put {A} (k : N) (v : A) (l : list (N * A)) : list (N * A) :=
  match l with
  | [] => [(k, v)]
  | (k', v') :: r => if N.eqb k k' then (k, v) :: r else (k', v') :: put k v r
  end.

(** The arithmetic on REAL64: any type with these operations ([ofZ] gives the constants
    1 and -1 of _mm_set_pd). *)
Record arith (V : Type) := Arith {
  a_ofZ : Z -> V;
  a_add : V -> V -> V;
  a_sub : V -> V -> V;
  a_mul : V -> V -> V }.
Arguments a_ofZ {V}. Arguments a_add {V}. Arguments a_sub {V}. Arguments a_mul {V}.

(** Blocks of memory, each an array of REAL64; a block starts at an address that is a
    multiple of 16, so that a pointer is aligned when its offset is even.  [None]: no
    such element. *)
Definition mem (V : Type) := nat -> nat -> option V.

Definition setm {V} (m : mem V) (b o : nat) (v : V) : mem V :=
  fun b' o' => if (b' =? b) && (o' =? o) then Some v else m b' o'.

Record st (V : Type) := St {
  regs : list (N * (V * V));
  ptrs : list (N * (nat * nat));
  memory : mem V }.
Arguments St {V}. Arguments regs {V}. Arguments ptrs {V}. Arguments memory {V}.

(** _mm_shuffle_pd: bit 0 of the immediate selects the half of the first operand that
    becomes the low half, bit 1 the half of the second that becomes the high half. *)
Definition shuffle {V} (x y : V * V) (imm : nat) : V * V :=
  (if Nat.odd imm then snd x else fst x, if Nat.odd (imm / 2) then snd y else fst y).

Section Machine.
  Context {V : Type}.
  Variable ar : arith V.

  (** The instructions that only use registers. *)
  Definition alu (i : instr) (rg : list (N * (V * V))) : option (list (N * (V * V))) :=
    let bin (d a b : N) (f : V * V -> V * V -> V * V) :=
      match get a rg, get b rg with
      | Some x, Some y => Some (put d (f x y) rg)
      | _, _ => None
      end in
    match i with
    | SetZero d => Some (put d (a_ofZ ar 0, a_ofZ ar 0) rg)
    | SetPd d hi lo => Some (put d (a_ofZ ar lo, a_ofZ ar hi) rg)
    | MulPd d a b => bin d a b (fun x y => (a_mul ar (fst x) (fst y), a_mul ar (snd x) (snd y)))
    | AddPd d a b => bin d a b (fun x y => (a_add ar (fst x) (fst y), a_add ar (snd x) (snd y)))
    | SubPd d a b => bin d a b (fun x y => (a_sub ar (fst x) (fst y), a_sub ar (snd x) (snd y)))
    | HAddPd d a b => bin d a b (fun x y => (a_add ar (fst x) (snd x), a_add ar (fst y) (snd y)))
    | HSubPd d a b => bin d a b (fun x y => (a_sub ar (fst x) (snd x), a_sub ar (fst y) (snd y)))
    | Shuffle d a b imm => bin d a b (fun x y => shuffle x y imm)
    | _ => None
    end.

  (** One instruction.  [None]: use of a variable that was not set, access to memory that
      is not there, or an aligned access at an address that is not a multiple of 16 (which
      is a fault). *)
  Definition exec1 (i : instr) (s : st V) : option (st V) :=
    match i with
    | Load al d p o =>
        match get p (ptrs s) with
        | Some (b, q) =>
            if al && Nat.odd (q + o) then None
            else match memory s b (q + o), memory s b (S (q + o)) with
                 | Some x, Some y => Some (St (put d (x, y) (regs s)) (ptrs s) (memory s))
                 | _, _ => None
                 end
        | None => None
        end
    | LoadSd d p o =>
        match get p (ptrs s) with
        | Some (b, q) =>
            match memory s b (q + o) with
            | Some x => Some (St (put d (x, a_ofZ ar 0) (regs s)) (ptrs s) (memory s))
            | None => None
            end
        | None => None
        end
    | Store al p o r =>
        match get p (ptrs s), get r (regs s) with
        | Some (b, q), Some (x, y) =>
            if al && Nat.odd (q + o) then None
            else match memory s b (q + o), memory s b (S (q + o)) with
                 | Some _, Some _ =>
                     Some (St (regs s) (ptrs s)
                             (setm (setm (memory s) b (q + o) x) b (S (q + o)) y))
                 | _, _ => None
                 end
        | _, _ => None
        end
    | StoreL p o r =>
        match get p (ptrs s), get r (regs s) with
        | Some (b, q), Some (x, y) =>
            match memory s b (q + o) with
            | Some _ => Some (St (regs s) (ptrs s) (setm (memory s) b (q + o) x))
            | None => None
            end
        | _, _ => None
        end
    | StoreH p o r =>
        match get p (ptrs s), get r (regs s) with
        | Some (b, q), Some (x, y) =>
            match memory s b (q + o) with
            | Some _ => Some (St (regs s) (ptrs s) (setm (memory s) b (q + o) y))
            | None => None
            end
        | _, _ => None
        end
    | MovePtr p q =>
        match get q (ptrs s) with
        | Some a => Some (St (regs s) (put p a (ptrs s)) (memory s))
        | None => None
        end
    | Bump p k =>
        match get p (ptrs s) with
        | Some (b, q) => Some (St (regs s) (put p (b, q + k) (ptrs s)) (memory s))
        | None => None
        end
    | _ =>
        match alu i (regs s) with
        | Some rg => Some (St rg (ptrs s) (memory s))
        | None => None
        end
    end.

  Fixpoint exec (l : list instr) (s : st V) : option (st V) :=
    match l with
    | [] => Some s
    | i :: r => match exec1 i s with Some s' => exec r s' | None => None end
    end.

  (** for(i = 0; i < n; i++) body *)
  Fixpoint loop (n : nat) (body : list instr) (s : st V) : option (st V) :=
    match n with
    | 0 => Some s
    | S n' => match exec body s with Some s' => loop n' body s' | None => None end
    end.
End Machine.

(** A kernel: what comes before the loop, how often the loop runs when the last argument is
    [n], its body (which may depend on [n]), and what comes after. *)
Record kernel := {
  k_pre : list instr;
  k_times : nat -> nat;
  k_body : nat -> list instr;
  k_post : list instr }.

(** A call with pointer arguments [args] and count [n]: the memory afterwards. *)
Definition call {V} (ar : arith V) (k : kernel) (args : list (N * (nat * nat))) (n : nat)
    (m : mem V) : option (mem V) :=
  match exec ar (k_pre k) (St [] args m) with
  | Some s =>
      match loop ar (k_times k n) (k_body k n) s with
      | Some s' => option_map memory (exec ar (k_post k) s')
      | None => None
      end
  | None => None
  end.

From Coq Require Import List Bool Arith NArith ZArith.
From Verif Require Import SseMachine.
Import ListNotations.
Open Scope nat_scope.

(** The instructions used by the single precision code of SSE builds
    (lib/scalarsite_sse/qdp_scalarsite_sse.cc).  A variable holds the list of its numbers,
    lowest first: four for __m128, two for __m128d, one for a double.  Numbers are elements
    of any type with the operations in [arith], the same for REAL32 and REAL64: rounding
    is not modelled, so that converting from one to the other changes nothing.  An
    expression of nested intrinsics is one instruction for each of them, with temporaries. *)
Inductive instr4 :=
| LoadPs (d p : N) (o : nat)           (* d = _mm_load_ps(p+o) *)
| LoadSs (d p : N)                     (* d = _mm_load_ss(p) *)
| StorePs (p : N) (o : nat) (r : N)    (* _mm_store_ps(p+o, r) *)
| MulV (d a b : N)                     (* _mm_mul_ps, _mm_mul_pd, a*b *)
| AddV (d a b : N)                     (* _mm_add_ps, _mm_add_pd, a+b *)
| SubV (d a b : N)                     (* _mm_sub_ps, a-b *)
| ShufPs (d a b : N) (imm : nat)       (* d = _mm_shuffle_ps(a,b,imm) *)
| CvtPsPd (d a : N)                    (* d = _mm_cvtps_pd(a) *)
| ZeroPd (d : N)                       (* d = _mm_setzero_pd() *)
| ShufPd (d a b : N) (imm : nat)       (* d = _mm_shuffle_pd(a,b,imm) *)
| StoreHPd (p : N) (r : N)             (* _mm_storeh_pd(p, r) *)
| ZeroS (d : N)                        (* d = 0 *)
| LoadS (d p : N)                      (* d = (REAL64)p[ptr++], ptr starting at 0 *)
| StoreS (p : N) (r : N)               (* *p = r *)
| Bump4 (p : N) (k : nat).             (* p += k *)

Record st4 (V : Type) := St4 {
  regs4 : N -> option (list V);
  ptrs4 : N -> option (nat * nat);
  mem4 : mem V }.
Arguments St4 {V}. Arguments regs4 {V}. Arguments ptrs4 {V}. Arguments mem4 {V}.

Definition set4 {A} (f : N -> option A) (k : N) (v : A) : N -> option A :=
  fun k' => if N.eqb k' k then Some v else f k'.

Section Machine4.
  Context {V : Type}.
  Variable ar : arith V.

  (** Aligned access to four numbers: a block starts at a multiple of 16 bytes, so that the
      address is one when the offset is a multiple of 4. *)
  Definition load4 (m : mem V) (b o : nat) : option (list V) :=
    if o mod 4 =? 0 then
      match m b o, m b (o + 1), m b (o + 2), m b (o + 3) with
      | Some x0, Some x1, Some x2, Some x3 => Some [x0; x1; x2; x3]
      | _, _, _, _ => None
      end
    else None.
  Definition store4 (m : mem V) (b o : nat) (l : list V) : option (mem V) :=
    match load4 m b o, l with
    | Some _, [x0; x1; x2; x3] => Some (setm (setm (setm (setm m b o x0) b (o + 1) x1) b (o + 2) x2) b (o + 3) x3)
    | _, _ => None
    end.

  (** Number by number, on variables of the same kind. *)
  Fixpoint lanes (f : V -> V -> V) (a b : list V) : option (list V) :=
    match a, b with
    | [], [] => Some []
    | x :: a', y :: b' => match lanes f a' b' with Some l => Some (f x y :: l) | None => None end
    | _, _ => None
    end.

  (** _mm_shuffle_ps: the immediate's pairs of bits select two numbers of the first operand,
      then two of the second. *)
  Definition shuf_ps (a b : list V) (imm : nat) : option (list V) :=
    match nth_error a (imm mod 4), nth_error a (imm / 4 mod 4), nth_error b (imm / 16 mod 4), nth_error b (imm / 64 mod 4) with
    | Some x0, Some x1, Some x2, Some x3 => Some [x0; x1; x2; x3]
    | _, _, _, _ => None
    end.
  Definition shuf_pd (a b : list V) (imm : nat) : option (list V) :=
    match a, b with
    | [x0; x1], [y0; y1] => Some [if Nat.odd imm then x1 else x0; if Nat.odd (imm / 2) then y1 else y0]
    | _, _ => None
    end.
  (** _mm_cvtps_pd: the two low numbers of four. *)
  Definition cvt (a : list V) : option (list V) :=
    match a with [x0; x1; _; _] => Some [x0; x1] | _ => None end.

  (** One instruction.  [None]: a variable that was not set, memory that is not there, or an
      aligned access at an address that is not a multiple of 16 (a fault). *)
  Definition exec4 (i : instr4) (s : st4 V) : option (st4 V) :=
    let reg d v := St4 (set4 (regs4 s) d v) (ptrs4 s) (mem4 s) in
    let bin d a b f :=
      match regs4 s a, regs4 s b with
      | Some x, Some y => match f x y with Some v => Some (reg d v) | None => None end
      | _, _ => None
      end in
    match i with
    | LoadPs d p o =>
        match ptrs4 s p with
        | Some (b, q) => match load4 (mem4 s) b (q + o) with Some v => Some (reg d v) | None => None end
        | None => None
        end
    | LoadSs d p =>
        match ptrs4 s p with
        | Some (b, q) => match mem4 s b q with
                         | Some x => Some (reg d [x; a_ofZ ar 0; a_ofZ ar 0; a_ofZ ar 0])
                         | None => None
                         end
        | None => None
        end
    | StorePs p o r =>
        match ptrs4 s p, regs4 s r with
        | Some (b, q), Some v =>
            match store4 (mem4 s) b (q + o) v with
            | Some m' => Some (St4 (regs4 s) (ptrs4 s) m')
            | None => None
            end
        | _, _ => None
        end
    | MulV d a b => bin d a b (lanes (a_mul ar))
    | AddV d a b => bin d a b (lanes (a_add ar))
    | SubV d a b => bin d a b (lanes (a_sub ar))
    | ShufPs d a b imm => bin d a b (fun x y => shuf_ps x y imm)
    | ShufPd d a b imm => bin d a b (fun x y => shuf_pd x y imm)
    | CvtPsPd d a =>
        match regs4 s a with
        | Some x => match cvt x with Some v => Some (reg d v) | None => None end
        | None => None
        end
    | ZeroPd d => Some (reg d [a_ofZ ar 0; a_ofZ ar 0])
    | StoreHPd p r =>
        match ptrs4 s p, regs4 s r with
        | Some (b, q), Some [_; y] =>
            match mem4 s b q with
            | Some _ => Some (St4 (regs4 s) (ptrs4 s) (setm (mem4 s) b q y))
            | None => None
            end
        | _, _ => None
        end
    | ZeroS d => Some (reg d [a_ofZ ar 0])
    | LoadS d p =>
        match ptrs4 s p with
        | Some (b, q) => match mem4 s b q with
                         | Some x => Some (St4 (set4 (regs4 s) d [x]) (set4 (ptrs4 s) p (b, q + 1)) (mem4 s))
                         | None => None
                         end
        | None => None
        end
    | StoreS p r =>
        match ptrs4 s p, regs4 s r with
        | Some (b, q), Some [y] =>
            match mem4 s b q with
            | Some _ => Some (St4 (regs4 s) (ptrs4 s) (setm (mem4 s) b q y))
            | None => None
            end
        | _, _ => None
        end
    | Bump4 p k =>
        match ptrs4 s p with
        | Some (b, q) => Some (St4 (regs4 s) (set4 (ptrs4 s) p (b, q + k)) (mem4 s))
        | None => None
        end
    end.

  Fixpoint run4 (l : list instr4) (s : st4 V) : option (st4 V) :=
    match l with
    | [] => Some s
    | i :: l' => match exec4 i s with Some s' => run4 l' s' | None => None end
    end.

  (** [l] [n] times. *)
  Fixpoint loop4 (n : nat) (l : list instr4) (s : st4 V) : option (st4 V) :=
    match n with
    | 0 => Some s
    | S n' => match run4 l s with Some s' => loop4 n' l s' | None => None end
    end.

  Definition start4 (args : list (N * (nat * nat))) (m : mem V) : st4 V :=
    St4 (fun _ => None) (fun p => get p args) m.
End Machine4.

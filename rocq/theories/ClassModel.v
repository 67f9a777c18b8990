(** isnan, isinf, isfinite and isnormal of site objects and lattices.

    The classification of a machine word is left open (functions nan, inf, fin,
    nor); everything above it is modelled. *)
From Coq Require Import List NArith PeanoNat Bool.
From Verif Require Import Base ComplexModel TensorModel.
Import ListNotations.

Section Class.
Context {R : Type} (nan inf fin nor : R -> bool).

(** for i < n: d |= f i, from false; d &= f i, from true. *)
Definition any (n : nat) (f : nat -> bool) : bool := fold_left (fun d i => d || f i) (seq 0 n) false.
Definition all (n : nat) (f : nat -> bool) : bool := fold_left (fun d i => d && f i) (seq 0 n) true.
(** The same over two nested loops with one accumulator. *)
Definition any2 (n : nat) (f : nat -> nat -> bool) : bool :=
  fold_left (fun d i => fold_left (fun d j => d || f i j) (seq 0 n) d) (seq 0 n) false.
Definition all2 (n : nat) (f : nat -> nat -> bool) : bool :=
  fold_left (fun d i => fold_left (fun d j => d && f i j) (seq 0 n) d) (seq 0 n) true.

(** qdp_reality.h 1361 and 2043; qdp_primscalar.h 918; qdp_primmatrix.h 766;
    qdp_primvector.h 550 and qdp_primspinvec.h 433. *)
Fixpoint v_isnan (x : @val R) : bool :=
  match x with
  | Rv a => nan a
  | Cv z => nan (fst z) || nan (snd z)
  | Sv a => v_isnan a
  | Mv _ n f => any2 n (fun i j => v_isnan (f i j))
  | Vv _ n f => any n (fun i => v_isnan (f i))
  | Bad => false
  end.
(** qdp_reality.h 1372 and 2051; qdp_primscalar.h 931; qdp_primmatrix.h 785;
    qdp_primvector.h 568 and qdp_primspinvec.h 451. *)
Fixpoint v_isinf (x : @val R) : bool :=
  match x with
  | Rv a => inf a
  | Cv z => inf (fst z) || inf (snd z)
  | Sv a => v_isinf a
  | Mv _ n f => any2 n (fun i j => v_isinf (f i j))
  | Vv _ n f => any n (fun i => v_isinf (f i))
  | Bad => false
  end.
(** qdp_reality.h 1389 and 2067; qdp_primscalar.h 957; qdp_primmatrix.h 823;
    qdp_primvector.h 604 and qdp_primspinvec.h 487. *)
Fixpoint v_isfinite (x : @val R) : bool :=
  match x with
  | Rv a => fin a
  | Cv z => fin (fst z) && fin (snd z)
  | Sv a => v_isfinite a
  | Mv _ n f => all2 n (fun i j => v_isfinite (f i j))
  | Vv _ n f => all n (fun i => v_isfinite (f i))
  | Bad => true
  end.
(** qdp_reality.h 1380 and 2059; qdp_primscalar.h 944; qdp_primmatrix.h 804-814,
    which calls isinf for the elements; qdp_primvector.h 586 and
    qdp_primspinvec.h 469. *)
Fixpoint v_isnormal (x : @val R) : bool :=
  match x with
  | Rv a => nor a
  | Cv z => nor (fst z) && nor (snd z)
  | Sv a => v_isnormal a
  | Mv _ n f => all2 n (fun i j => v_isinf (f i j))
  | Vv _ n f => all n (fun i => v_isnormal (f i))
  | Bad => true
  end.

(** The loop over the sites of one node: qdp_parscalar_specific.h 1555-1558,
    1600-1603 (any), 1645-1648, 1690-1693 (all); qdp_scalar_specific.h 1448 on. *)
Definition node_any (p : @val R -> bool) (sites : list (@val R)) : bool := fold_left (fun d x => d || p x) sites false.
Definition node_all (p : @val R -> bool) (sites : list (@val R)) : bool := fold_left (fun d x => d && p x) sites true.
End Class.

(** * The reduction over the nodes *)
(** A block of memory is the list of its bytes.  *(unsigned int * )p on a block
    of fewer than four bytes is out of bounds. *)
Definition byte_op (op : N -> N -> N) (a b : list N) : list N := map (fun ab => op (fst ab) (snd ab)) (combine a b).
(** globalCheckAnd and globalCheckOr: qdp_parscalar_specific.h 195-198 and
    210-213.  The operation on the word is bitwise, so byte by byte. *)
Definition globalCheck (op : N -> N -> N) (inout inb : list N) : res (list N) :=
  if (4 <=? length inout) && (4 <=? length inb) then
    Val (byte_op op (firstn 4 inout) (firstn 4 inb) ++ skipn 4 inout)
  else Undef.
(** QMP_binary_reduction (outside the code): the function is applied to the
    nodes' buffers of the given size one after another.  With one node there is
    nothing to combine. *)
Fixpoint binary_reduction (op : N -> N -> N) (acc : list N) (others : list (list N)) : res (list N) :=
  match others with
  | [] => Val acc
  | b :: bs => bind (globalCheck op acc b) (fun acc => binary_reduction op acc bs)
  end.
(** A bool in memory: one byte (sizeof(bool) = 1), 1 for true. *)
Definition bool_bytes (b : bool) : list N := [if b then 1%N else 0%N].
(** globalAnd and globalOr (202-205, 216-219): the buffer has sizeof(bool)
    bytes; [slack] bytes more happen to be there and are accessible. *)
Definition global_bool (op : N -> N -> N) (slack : list N) (ds : list bool) : res bool :=
  match ds with
  | [] => Undef
  | d :: ds =>
      bind (binary_reduction op (bool_bytes d ++ slack) (map (fun b => bool_bytes b ++ slack) ds))
        (fun m => match m with b :: _ => Val (negb (N.eqb b 0)) | [] => Undef end)
  end.
(** What the function leaves in the bytes after the bool. *)
Definition global_after (op : N -> N -> N) (d b : bool) (after after' : list N) : res (list N) :=
  bind (globalCheck op (bool_bytes d ++ after) (bool_bytes b ++ after')) (fun m => Val (tl m)).

Section Lattice.
Context {R : Type}.
(** isnan and isinf (op = or), isfinite and isnormal (op = and) of a lattice
    whose nodes hold the given sites. *)
Definition lattice_any (p : @val R -> bool) (slack : list N) (nodes : list (list (@val R))) : res bool :=
  global_bool N.lor slack (map (node_any p) nodes).
Definition lattice_all (p : @val R -> bool) (slack : list N) (nodes : list (list (@val R))) : res bool :=
  global_bool N.land slack (map (node_all p) nodes).
End Lattice.

(** Model of the memory allocators: lib/qdp_default_allocator.cc, lib/qdp_pool_allocator.cc and the
    memory management of OLattice in include/qdp_outer.h.

    Addresses and sizes are integers below 2^64.  A is QDP_ALIGNMENT_SIZE (include/qdp.h 79-83), an int
    chosen when the library is configured (configure.ac 65-73).

    What the operating system (operator new, the TBB pool) answers is an input of the model: every
    allocation carries the address it obtains, or none.  The model keeps the blocks the system has
    handed out, so that giving back something else is undefined behaviour. *)
From Coq Require Import List ZArith Bool.
From Verif Require Import Base.
Import ListNotations.
Local Open Scope Z_scope.

Definition wrap (x : Z) : Z := x mod 2 ^ 64.

(** qdp_default_allocator.cc 47 and qdp_pool_allocator.cc 76-77: ~(A - 1) is an int that is converted
    to unsigned long. *)
Definition align (A u : Z) : Z := Z.land (wrap (u + (A - 1))) (wrap (Z.lnot (A - 1))).
(** Lines 29-34 and 69-71. *)
Definition bytes_to_alloc (A n : Z) : Z := wrap (n + A).

(** Blocks the system has handed out: address and size. *)
Definition blocks := list (Z * Z).
Fixpoint give_back (u : Z) (raw : blocks) : res blocks :=
  match raw with
  | [] => Undef
  | (v, b) :: raw => if v =? u then Val raw else bind (give_back u raw) (fun r => Val ((v, b) :: r))
  end.

(** std::map from aligned to unaligned addresses. *)
Definition amap := list (Z * Z).
Fixpoint find_addr (p : Z) (m : amap) : option Z :=
  match m with [] => None | (q, u) :: m => if q =? p then Some u else find_addr p m end.
Fixpoint erase_addr (p : Z) (m : amap) : amap :=
  match m with [] => [] | (q, u) :: m => if q =? p then m else (q, u) :: erase_addr p m end.

Record heap := mkHeap { raw : blocks; table : amap }.
Definition start : heap := mkHeap [] [].

(** The result of a call that returns: an address, or the exception std::bad_alloc. *)
Inductive result := Ret (p : Z) | BadAlloc | Done.

(** ** QDPDefaultAllocator *)

(** allocate, 20-68. *)
Definition default_allocate (A n : Z) (answer : option Z) (h : heap) : res (heap * result) :=
  match answer with
  | None => Val (h, BadAlloc)
  | Some u =>
      let h := mkHeap ((u, bytes_to_alloc A n) :: raw h) (table h) in
      let p := align A u in
      match find_addr p (table h) with
      | Some _ => Abort
      | None => Val (mkHeap (raw h) ((p, u) :: table h), Ret p)
      end
  end.
(** free, 72-97. *)
Definition default_free (p : Z) (h : heap) : res (heap * result) :=
  match find_addr p (table h) with
  | Some u => bind (give_back u (raw h)) (fun r => Val (mkHeap r (erase_addr p (table h)), Done))
  | None => Abort
  end.

(** ** QDPPoolAllocator, between init and the destructor (init twice aborts, 40-43; any use before it
    is a call through a null pointer) *)

(** allocate, 64-96: the pool answers a failed request with a null pointer, which is not tested. *)
Definition pool_allocate (A n : Z) (answer : option Z) (h : heap) : res (heap * result) :=
  let '(u, r) := match answer with
                 | Some u => (u, (u, bytes_to_alloc A n) :: raw h)
                 | None => (0, raw h)
                 end in
  let p := align A u in
  match find_addr p (table h) with
  | Some _ => Abort
  | None => Val (mkHeap r ((p, u) :: table h), Ret p)
  end.
(** free, 98-125: operator[] makes an entry with a null pointer for an unknown address, and the pool
    ignores a null pointer. *)
Definition pool_free (p : Z) (h : heap) : res (heap * result) :=
  let u := match find_addr p (table h) with Some u => u | None => 0 end in
  bind (if u =? 0 then Val (raw h) else give_back u (raw h)) (fun r =>
  Val (mkHeap r (erase_addr p (table h)), Done)).

(** ** Histories *)
Inductive call := Allocate (n : Z) (answer : option Z) | Free (p : Z).
Inductive kind := Default | Pool.
Definition step (K : kind) (A : Z) (c : call) (h : heap) : res (heap * result) :=
  match K, c with
  | Default, Allocate n a => default_allocate A n a h
  | Default, Free p => default_free p h
  | Pool, Allocate n a => pool_allocate A n a h
  | Pool, Free p => pool_free p h
  end.
Fixpoint run (K : kind) (A : Z) (cs : list call) (h : heap) : res (heap * list result) :=
  match cs with
  | [] => Val (h, [])
  | c :: cs => bind (step K A c h) (fun '(h, r) => bind (run K A cs h) (fun '(h, rs) => Val (h, r :: rs)))
  end.

(** ** Lattice objects, qdp_outer.h 263-467 *)
Record lattice := mkLat { l_mem : bool; l_F : Z }.
(** alloc_mem, 412-426, called by every constructor but one; a bad_alloc is caught and ends the program. *)
Definition alloc_mem (K : kind) (A sizeofT sites : Z) (answer : option Z) (h : heap) : res (heap * lattice) :=
  bind (step K A (Allocate (wrap (sizeofT * sites)) answer) h) (fun '(h, r) =>
  match r with
  | Ret p => Val (h, mkLat true p)
  | _ => Abort
  end).
(** The constructor from a pointer, 276. *)
Definition lat_view (p : Z) : lattice := mkLat false p.
(** free_mem, 439-449, by the destructor. *)
Definition free_mem (K : kind) (A : Z) (l : lattice) (h : heap) : res (heap * lattice) :=
  if negb (l_mem l) then Val (h, l)
  else bind (if l_F l =? 0 then Val h else bind (step K A (Free (l_F l)) h) (fun '(h, _) => Val h)) (fun h =>
       Val (h, mkLat false 0)).

(** Programs that make and destroy lattice objects. *)
Inductive lat_call :=
| New (x : nat) (sizeofT : Z) (answer : option Z)
| View (x y : nat)       (* x uses the memory of y *)
| Delete (x : nat).
Definition lats := nat -> option lattice.
Definition set_lat (x : nat) (l : option lattice) (s : lats) : lats := fun y => if Nat.eqb y x then l else s y.
Definition lat_step (K : kind) (A sites : Z) (c : lat_call) (st : lats * heap) : res (lats * heap) :=
  let '(s, h) := st in
  match c with
  | New x sz a => bind (alloc_mem K A sz sites a h) (fun '(h, l) => Val (set_lat x (Some l) s, h))
  | View x y => bind (of_option (s y)) (fun l => Val (set_lat x (Some (lat_view (l_F l))) s, h))
  | Delete x => bind (of_option (s x)) (fun l => bind (free_mem K A l h) (fun '(h, _) => Val (set_lat x None s, h)))
  end.
Fixpoint lat_run (K : kind) (A sites : Z) (cs : list lat_call) (st : lats * heap) : res (lats * heap) :=
  match cs with [] => Val st | c :: cs => bind (lat_step K A sites c st) (lat_run K A sites cs) end.

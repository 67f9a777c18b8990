(** What a user expects of an allocator. *)
From Coq Require Import List ZArith Bool.
From Verif Require Import Base AllocModel.
Import ListNotations.
Local Open Scope Z_scope.

(** Two ranges of addresses (address, size) do not overlap. *)
Definition apart (a b : Z * Z) : Prop := fst a + snd a <= fst b \/ fst b + snd b <= fst a.
Definition within (a b : Z * Z) : Prop := fst b <= fst a /\ fst a + snd a <= fst b + snd b.

(** The system hands out memory that nobody else has (and that does not reach the end of the address space). *)
Definition answer_ok (bytes : Z) (used : list (Z * Z)) (answer : option Z) : Prop :=
  match answer with
  | None => True
  | Some u => 0 < u /\ u + bytes < 2 ^ 64 /\ Forall (apart (u, bytes)) used
  end.
Definition call_ok (A : Z) (c : call) (h : heap) : Prop :=
  match c with Allocate n a => 0 <= n /\ answer_ok (bytes_to_alloc A n) (raw h) a | Free _ => True end.
Fixpoint system_ok (K : kind) (A : Z) (cs : list call) (h : heap) : Prop :=
  match cs with
  | [] => True
  | c :: cs => call_ok A c h /\ match step K A c h with Val (h, _) => system_ok K A cs h | _ => True end
  end.
(** No request is so large that adding the alignment overflows. *)
Definition sizes_ok (A : Z) (cs : list call) : Prop :=
  Forall (fun c => match c with Allocate n _ => n + A < 2 ^ 64 | Free _ => True end) cs.

(** The blocks the user holds (address, size), youngest first. *)
Fixpoint drop (p : Z) (l : list (Z * Z)) : list (Z * Z) :=
  match l with [] => [] | (q, n) :: l => if q =? p then l else (q, n) :: drop p l end.
Definition live1 (c : call) (r : result) (l : list (Z * Z)) : list (Z * Z) :=
  match c, r with
  | Allocate n _, Ret p => if p =? 0 then l else (p, n) :: l
  | Allocate _ _, _ => l
  | Free p, _ => drop p l
  end.
Fixpoint live (cs : list call) (rs : list result) (l : list (Z * Z)) : list (Z * Z) :=
  match cs, rs with c :: cs, r :: rs => live cs rs (live1 c r l) | _, _ => l end.

(** ** Lattice objects *)
(** A variable is declared once and leaves its scope once; a view is made of a variable in scope. *)
Fixpoint scopes_ok (cs : list lat_call) (used : nat -> bool) : Prop :=
  match cs with
  | [] => True
  | New x sz _ :: cs => used x = false /\ 0 <= sz /\ scopes_ok cs (fun y => if Nat.eqb y x then true else used y)
  | View x y :: cs => used x = false /\ used y = true /\ scopes_ok cs (fun z => if Nat.eqb z x then true else used z)
  | Delete x :: cs => used x = true /\ scopes_ok cs (fun y => if Nat.eqb y x then false else used y)
  end.
Fixpoint lat_system_ok (K : kind) (A sites : Z) (cs : list lat_call) (st : lats * heap) : Prop :=
  match cs with
  | [] => True
  | c :: cs => match c with New _ sz a => answer_ok (bytes_to_alloc A (wrap (sz * sites))) (raw (snd st)) a | _ => True end /\
               match lat_step K A sites c st with Val st => lat_system_ok K A sites cs st | _ => True end
  end.
Definition lat_sizes_ok (A sites : Z) (cs : list lat_call) : Prop :=
  Forall (fun c => match c with New _ sz _ => sz * sites + A < 2 ^ 64 | _ => True end) cs.
(** The size in bytes of each lattice object that has memory of its own. *)
Fixpoint owned (sites : Z) (cs : list lat_call) (o : nat -> option Z) : nat -> option Z :=
  match cs with
  | [] => o
  | New x sz _ :: cs => owned sites cs (fun y => if Nat.eqb y x then Some (sz * sites) else o y)
  | View x _ :: cs | Delete x :: cs => owned sites cs (fun y => if Nat.eqb y x then None else o y)
  end.

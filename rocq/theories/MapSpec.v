(** Specification of maps. *)
From Coq Require Import List Arith ZArith.
From Verif Require Import Base LayoutModel LayoutSpec.
Import ListNotations.
Local Open Scope nat_scope.

(** A lattice field is a function of the coordinates; [stored lay phi node] is what node
    [node] of the layout holds. *)
Definition stored {T} (lay : layout) (phi : list nat -> T) (node : nat) : list T :=
  map (fun i => phi (l_coord lay node i)) (seq 0 (l_sites lay)).
Definition stored_all {T} (lay : layout) (phi : list nat -> T) : list (list T) :=
  map (stored lay phi) (seq 0 (l_nodes lay)).

(** [f] maps sites to sites. *)
Definition site_map (L : list nat) (f : list nat -> list nat) : Prop :=
  forall c, in_lattice L c -> in_lattice L (f c).

(** [fwd] is a permutation of the sites with inverse [bwd]. *)
Definition site_permutation (L : list nat) (fwd bwd : list nat -> list nat) : Prop :=
  bijective_between (in_lattice L) (in_lattice L) fwd bwd.

(** Every node gets off-node data from at most one node: any two sites of one node whose
    sources are on other nodes have them on the same node. *)
Definition one_partner (lay : layout) (f : list nat -> list nat) : Prop :=
  forall c d, in_lattice (l_size lay) c -> in_lattice (l_size lay) d ->
    l_node lay c = l_node lay d ->
    l_node lay (f c) <> l_node lay c -> l_node lay (f d) <> l_node lay d ->
    l_node lay (f c) = l_node lay (f d).

(** The site one step from [c] in direction [mu], forward or backward, with periodic
    boundary. *)
Definition step_site (L : list nat) (fwd : bool) (mu : nat) (c : list nat) : list nat :=
  upd mu (if fwd then (if S (get c mu) =? get L mu then 0 else S (get c mu))
          else (if get c mu =? 0 then get L mu - 1 else get c mu - 1)) c.

(** Sign of a shift: FORWARD is +1, BACKWARD is -1. *)
Definition sign_of (fwd : bool) : Z := if fwd then 1%Z else (-1)%Z.

(** The list without repetitions, in order of first occurrence. *)
Fixpoint dedupe (l : list nat) : list nat :=
  match l with
  | [] => []
  | x :: l' => x :: filter (fun y => negb (y =? x)) (dedupe l')
  end.

(** n-fold application. *)
Fixpoint iter_res {A} (n : nat) (f : A -> res A) (a : A) : res A :=
  match n with 0 => Val a | S n' => bind (f a) (iter_res n' f) end.

(** Specification of site layouts.  Only the types [layout_kind], [machine], [layout] and
    plain vector access [get] are taken from LayoutModel.v. *)
From Coq Require Import List Arith.
From Verif Require Import LayoutModel.
Import ListNotations.

(** [c] is a site of the lattice with extents [L]: same number of coordinates, each
    coordinate below its extent. *)
Definition in_lattice (L c : list nat) : Prop := Forall2 (fun x l => x < l) c L.

(** Number of sites. *)
Fixpoint volume (L : list nat) : nat :=
  match L with [] => 1 | l :: L' => l * volume L' end.

(** Lexicographic number with the first coordinate fastest:
    x0 + L0*(x1 + L1*(x2 + ...)). *)
Fixpoint lexnum (L c : list nat) : nat :=
  match L, c with
  | l :: L', x :: c' => x + l * lexnum L' c'
  | _, _ => 0
  end.

(** Rotation bringing the last coordinate to the front. *)
Definition rot (c : list nat) : list nat := last c 0 :: removelast c.

(** Lexicographic number with the last coordinate (time) fastest, then the first, ... *)
Definition lexnum_t (L c : list nat) : nat := lexnum (rot L) (rot c).

(** The pair of maps [f : A -> B], [g : B -> A] is a bijection between the subsets [P]
    and [Q]. *)
Definition bijective_between {A B} (P : A -> Prop) (Q : B -> Prop) (f : A -> B) (g : B -> A)
  : Prop :=
  (forall a, P a -> Q (f a) /\ g (f a) = a) /\ (forall b, Q b -> P (g b) /\ f (g b) = b).

(** Sum of the first [m] coordinates. *)
Definition coord_sum (m : nat) (c : list nat) : nat := list_sum (firstn m c).

(** The 32-style colour of a site: the parities of the coordinates as a binary number
    (first coordinate least significant), plus 2^Nd times the parity of the sum of the
    halved coordinates. *)
Fixpoint parity_bits (c : list nat) : nat :=
  match c with [] => 0 | x :: c' => x mod 2 + 2 * parity_bits c' end.
Definition colour32 (c : list nat) : nat :=
  parity_bits c + 2 ^ length c * (list_sum (map (fun x => x / 2) c) mod 2).

(** All extents are positive. *)
Definition positive (L : list nat) : Prop := forall i, i < length L -> 0 < get L i.

(** Divisibility needed by the 32-style layout: the first extent a multiple of 4, the
    others even. *)
Definition admissible32 (L : list nat) : Prop :=
  Nat.divide 4 (get L 0) /\ forall i, 0 < i < length L -> Nat.divide 2 (get L i).

(** Lattice sizes a single-process layout is meant for. *)
Definition adm1 (k : layout_kind) (L : list nat) : Prop :=
  0 < length L /\ positive L /\
  match k with
  | LEXICO => True
  | CB2 => Nat.Even (get L 0)
  | CB3D => 2 <= length L /\ Nat.Even (get L 0)
  | CB32 => admissible32 L
  end.

(** The machine's node numbering is a bijection between its logical grid and
    [0, number of nodes). *)
Definition machine_ok (M : machine) : Prop :=
  positive (mgrid M) /\
  bijective_between (in_lattice (mgrid M)) (fun q => q < volume (mgrid M)) (node_of M) (coord_of M).

(** Smallest admissible local extents: 1, or 2 in the first direction of a checkerboarded
    layout. *)
Definition min_extent (k : layout_kind) (i : nat) : nat :=
  match k, i with LEXICO, _ => 1 | _, 0 => 2 | _, _ => 1 end.

(** The node grid divides the lattice into admissible local lattices. *)
Definition admP (k : layout_kind) (M : machine) (L : list nat) : Prop :=
  par_kind k = true /\ 0 < length L /\ positive L /\ (k = CB3D -> 2 <= length L) /\
  machine_ok M /\ length (mgrid M) = length L /\
  forall i, i < length L -> Nat.divide (get (mgrid M) i * min_extent k i) (get L i).

(** A layout is sound: sites of the lattice correspond one to one to pairs
    (node, index) with node < numNodes and index < sitesOnNode. *)
Definition layout_ok (lay : layout) : Prop :=
  0 < length (l_size lay) /\ positive (l_size lay) /\
  bijective_between (in_lattice (l_size lay))
    (fun p => fst p < l_nodes lay /\ snd p < l_sites lay)
    (fun c => (l_node lay c, l_lin lay c)) (fun p => l_coord lay (fst p) (snd p)).

(** The checkerboard colour a layout groups by, and the number of blocks. *)
Definition colour_of (k : layout_kind) (c : list nat) : nat :=
  match k with
  | LEXICO => 0
  | CB2 => coord_sum (length c) c mod 2
  | CB3D => coord_sum (length c - 1) c mod 2
  | CB32 => colour32 c
  end.
Definition blocks (k : layout_kind) (n : nat) : nat :=
  match k with LEXICO => 1 | CB2 => 2 | CB3D => 2 | CB32 => 2 ^ (n + 1) end.

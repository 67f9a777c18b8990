(** Norms and inner products of lattice fermions, site by site. *)
From Coq Require Import ZArith List.
From Verif Require Import Base SetModel EvalSpec KernLang KernSpec FuseSpec.
Import ListNotations.
Local Open Scope Z_scope.

Section Spec.
  Context {R : Type} (rO : R) (radd rmul rsub : R -> R -> R).
  (** The 24 reals of site [i]: 12 complex numbers, real and imaginary part alternating. *)
  Definition site (x : @vec R) (i : nat) : @vec R := fun j => x (24 * Z.of_nat i + j).
  (** sum over the 12 complex numbers of |x|^2, Re(x* y), Im(x* y) *)
  Definition site_norm (x : @vec R) (i : nat) : R :=
    EvalSpec.total rO radd (map (fun c => radd (rmul (site x i (2 * c)) (site x i (2 * c)))
                                      (rmul (site x i (2 * c + 1)) (site x i (2 * c + 1)))) [0;1;2;3;4;5;6;7;8;9;10;11]).
  Definition site_re (x y : @vec R) (i : nat) : R :=
    EvalSpec.total rO radd (map (fun c => radd (rmul (site x i (2 * c)) (site y i (2 * c)))
                                      (rmul (site x i (2 * c + 1)) (site y i (2 * c + 1)))) [0;1;2;3;4;5;6;7;8;9;10;11]).
  Definition site_im (x y : @vec R) (i : nat) : R :=
    EvalSpec.total rO radd (map (fun c => rsub (rmul (site x i (2 * c)) (site y i (2 * c + 1)))
                                      (rmul (site x i (2 * c + 1)) (site y i (2 * c)))) [0;1;2;3;4;5;6;7;8;9;10;11]).

  (** The sum of [f] over the sites of a subset. *)
  Definition over (tab : list nat) (f : nat -> R) : R := EvalSpec.total rO radd (map f tab).
End Spec.

(** A node: its memory, the number of its sites, its part of the subset, where the fields are. *)
Record node {R : Type} := mk_node { n_mem : memory R; n_vol : nat; n_sub : subset; n_x : ptr; n_y : ptr }.
(** The fields are there, and the locals are not inside them. *)
Definition node_ok {R} (la lb : nat) (n : @node R) : Prop :=
  good_subset (n_vol n) (n_sub n) /\
  has (n_mem n) (n_x n) (24 * Z.of_nat (n_vol n)) /\ has (n_mem n) (n_y n) (24 * Z.of_nat (n_vol n)) /\
  fst (n_x n) <> la /\ fst (n_x n) <> lb /\ fst (n_y n) <> la /\ fst (n_y n) <> lb /\ la <> lb.

(** The fermion field with the 24 reals [psi c] at the site with coordinates [c] is at address [x] of node [q]. *)
Definition holds {R} (rO : R) (lay : LayoutModel.layout) (q : nat) (m : memory R) (x : ptr) (psi : list nat -> @vec R) : Prop :=
  has m x (24 * Z.of_nat (LayoutModel.l_sites lay)) /\
  forall i j, (i < LayoutModel.l_sites lay)%nat -> 0 <= j < 24 ->
    value rO m x (24 * Z.of_nat i + j) = psi (LayoutModel.l_coord lay q i) j.

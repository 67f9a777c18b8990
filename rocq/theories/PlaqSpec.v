(** What the plaquette and the link of a gauge field are. *)
From Coq Require Import List Arith ZArith Bool.
From Verif Require Import Base ComplexModel LayoutModel LayoutSpec MapSpec TensorModel LatIoModel LatIoSpec PlaqModel.
Import ListNotations.

Section Spec.
Context {R : Type} (rO rI : R) (radd rmul rsub rdiv : R -> R -> R) (ropp : R -> R) (ofZ : Z -> R).
Local Notation cx := (R * R)%type.
Local Notation cmul := (c_mul radd rmul rsub).
Local Notation conj := (c_conj ropp).

Definition rsum {A} (l : list A) (f : A -> R) : R := fold_right (fun a s => radd (f a) s) rO l.
Definition csum (n : nat) (f : nat -> cx) : cx :=
  (rsum (seq 0 n) (fun i => fst (f i)), rsum (seq 0 n) (fun i => snd (f i))).

(** A gauge field: a matrix for every direction and site. *)
Definition gauge := nat -> list nat -> nat -> nat -> cx.
Definition ahead (L : list nat) (mu : nat) (c : list nat) : list nat := step_site L true mu c.

(** Re tr U_mu(x) U_nu(x+mu) U_mu(x+nu)^+ U_nu(x)^+ . *)
Definition plaquette (n : nat) (L : list nat) (u : gauge) (mu nu : nat) (x : list nat) : R :=
  fst (csum n (fun i => csum n (fun j => csum n (fun k => csum n (fun l =>
    cmul (cmul (cmul (u mu x i j) (u nu (ahead L mu x) j k)) (conj (u mu (ahead L nu x) l k))) (conj (u nu x i l))))))).
Definition link_trace (n : nat) (u : gauge) (mu : nat) (x : list nat) : R := fst (csum n (fun i => u mu x i i)).

(** Every pair of directions once, every site once. *)
Definition plaquettes (n : nat) (L : list nat) (u : gauge) : R :=
  rsum (seq 0 (length L)) (fun mu => rsum (seq 0 mu) (fun nu => rsum (all_sites L) (plaquette n L u mu nu))).
Definition links (n : nat) (L : list nat) (u : gauge) : R :=
  rsum (seq 0 (length L)) (fun mu => rsum (all_sites L) (link_trace n u mu)).

(** The fields of a program that hold [u]. *)
Definition as_fields (b : build) (n : nat) (u : gauge) : list (@pfield R) :=
  map (fun mu => stored_all (lay_of b) (fun x => Sv (Mv Colour n (fun i j => Cv (u mu x i j))))) (seq 0 (length (build_size b))).

(** A unitary matrix at every site, and the gauge field transformed by it. *)
Definition unitary (n : nat) (g : nat -> nat -> cx) : Prop :=
  forall i j, i < n -> j < n -> csum n (fun k => cmul (conj (g k i)) (g k j)) = if i =? j then (rI, rO) else (rO, rO).
Definition transformed (n : nat) (L : list nat) (g : list nat -> nat -> nat -> cx) (u : gauge) : gauge :=
  fun mu x i j => csum n (fun k => csum n (fun l => cmul (cmul (g x i k) (u mu x k l)) (conj (g (ahead L mu x) j l)))).
End Spec.

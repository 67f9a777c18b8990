(** The plaquette and the link of a gauge field, as NERSC archives record them
    (lib/qdp_iogauge.cc 33-63).

    Numbers are an arbitrary type with operations; rounding is not modelled.
    int products are checked: overflow is undefined.  Products with adj( ) are
    computed as written; that the expression templates' multiplyAdj is the same
    is C74. *)
From Coq Require Import List Arith ZArith Bool.
From Verif Require Import Base LayoutModel LayoutInt MapModel TensorModel LatIoModel.
Import ListNotations.

Section Plaq.
Context {R : Type} (rO : R) (radd rmul rsub rdiv : R -> R -> R) (ropp : R -> R) (ofZ : Z -> R).
Local Notation val := (@val R).

(** LatticeColorMatrix, LatticeReal: the sites of every node
    (include/qdp_outer.h, OLattice). *)
Definition pfield := list (list val).

(** shift(l,isign,dir): include/qdp_map.h, as modelled in MapModel (shift1 for
    single-process, shiftP for multi-node builds). *)
Definition pshift (b : build) (l : pfield) (isign : Z) (dir : nat) : res pfield :=
  match b with
  | Single k L => bind (of_option (nth_error l 0)) (fun x =>
                    bind (shift1 (scalar_layout k L) x isign dir) (fun y => Val [y]))
  | Multi _ k M L => shiftP (par_layout k M L) l isign dir
  end.

(** Site loops of an assignment (evaluate, include/qdp_scalar_specific.h,
    qdp_parscalar_specific.h; the loops themselves are C24 and C26). *)
Definition zip {A B C} (f : A -> B -> C) (x : list A) (y : list B) : list C :=
  map (fun p => f (fst p) (snd p)) (combine x y).
Definition each1 (f : val -> val) (x : pfield) : pfield := map (map f) x.
Definition each2 (f : val -> val -> val) (x y : pfield) : pfield := zip (zip f) x y.

(** sum(l): d = 0; d += every site; then the sum over the nodes
    (include/qdp_scalar_specific.h, sum; include/qdp_parscalar_specific.h, sum
    and QDPInternal::globalSum).  Simplified: the nodes are added in order,
    beginning with 0, in single-process builds too. *)
Definition zero_val : val := Sv (Sv (Rv rO)).
Definition psum (x : pfield) : val :=
  fold_left (vadd radd) (map (fun s => fold_left (vadd radd) s zero_val) x) zero_val.
(** The number in a Double (include/qdp_outer.h, OScalar; PScalar; RScalar). *)
Definition word (v : val) : res R := match v with Sv (Sv (Rv x)) => Val x | _ => Undef end.

(** const multi1d<LatticeColorMatrix>& u; u[mu]. *)
Definition link (u : list pfield) (mu : nat) : res pfield := of_option (nth_error u mu).

(** lib/qdp_iogauge.cc 43-49: one pair of directions. *)
Definition plane (b : build) (u : list pfield) (mu nu : nat) : res val :=
  bind (link u mu) (fun umu => bind (link u nu) (fun unu =>
  bind (pshift b unu 1%Z mu) (fun s => bind (pshift b umu 1%Z nu) (fun t =>
  let tmp_0 := each2 (vmul radd rmul rsub) s (each1 (vadj ropp) t) in
  let tmp_1 := each2 (vmul radd rmul rsub) tmp_0 (each1 (vadj ropp) unu) in
  Val (psum (each1 vreal (each1 (vtrace radd) (each2 (vmul radd rmul rsub) umu tmp_1)))))))).

(** for(int mu=1; mu < Nd; ++mu) for(int nu=0; nu < mu; ++nu), 38-40. *)
Definition planes (nd : nat) : list (nat * nat) :=
  flat_map (fun mu => map (fun nu => (mu, nu)) (seq 0 mu)) (seq 1 (nd - 1)).
(** w_plaq += tmp (51), link += ... (60): a loop of += . *)
Fixpoint total {A} (f : A -> res val) (l : list A) (w : val) : res val :=
  match l with [] => Val w | a :: l => bind (f a) (fun x => total f l (vadd radd w x)) end.

(** Layout::vol()*Nd*(Nd-1)*Nc (56) and Layout::vol()*Nd*Nc (62): int. *)
Definition product (l : list Z) (v : Z) : res Z :=
  fold_left (fun r z => bind r (fun v => int (v * z)%Z)) l (Val v).

(** mesplq, lib/qdp_iogauge.cc 33-63.  Nd is the number of directions of the
    lattice. *)
Definition mesplq (b : build) (nc : nat) (u : list pfield) : res (R * R) :=
  let nd := length (build_size b) in
  let zvol := Z.of_nat (vol (build_size b)) in
  let zd := Z.of_nat nd in
  bind (total (fun p => plane b u (fst p) (snd p)) (planes nd) zero_val) (fun w =>
  bind (product [zd; zd - 1; Z.of_nat nc]%Z zvol) (fun den =>
  bind (word w) (fun w =>
  let w_plaq := rmul w (rdiv (ofZ 2%Z) (ofZ den)) in
  bind (total (fun mu => bind (link u mu) (fun x => Val (psum (each1 vreal (each1 (vtrace radd) x)))))
          (seq 0 nd) zero_val) (fun l =>
  bind (product [zd; Z.of_nat nc] zvol) (fun den =>
  bind (word l) (fun l => Val (w_plaq, rdiv l (ofZ den)))))))).
End Plaq.

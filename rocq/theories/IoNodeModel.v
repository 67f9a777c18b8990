(** Model of the assignment of I/O nodes given to the QIO library: lib/qdp_qdpio.cc:40-107, and of
    the I/O grid kept by the layout: lib/qdp_parscalar_layout.cc:182-214,
    lib/qdp_scalar_layout.cc:124-157.

    Simplifications: ints are unbounded [Z] (the product of the I/O grid is assumed to fit an int);
    QMP's node numbering is the [machine] of LayoutModel.v. *)
From Coq Require Import List Arith ZArith Bool.
From Verif Require Import Base LayoutModel.
Import ListNotations.
Local Open Scope Z_scope.

(** C's / and % on ints. *)
Definition c_div (a b : Z) : res Z := if b =? 0 then Undef else Val (Z.quot a b).
Definition c_rem (a b : Z) : res Z := if b =? 0 then Undef else Val (Z.rem a b).

(** The I/O grid of the layout: none before setIONodeGrid,
    lib/qdp_parscalar_layout.cc:182-185 (isIOGridDefined), 197-214. *)
Definition io_grid := option (list Z).
(** setIONodeGrid, lib/qdp_parscalar_layout.cc:197-208: copied unchecked. *)
Definition setIONodeGrid (g : list Z) : io_grid := Some g.
(** numIONodeGrid, lib/qdp_parscalar_layout.cc:188-194 with the product of 203-206. *)
Definition numIONodeGrid (g : list Z) : Z :=
  fold_left Z.mul (tl g) (hd 1 g).

(** master_io_node, lib/qdp_qdpio.cc:42-45. *)
Definition master_io_node : nat := 0%nat.

(** block_sizes[mu], lib/qdp_qdpio.cc:71-80. *)
Definition block_size (proc_size io_geom : Z) : res Z :=
  bind (c_div proc_size io_geom) (fun b =>
  bind (c_rem proc_size io_geom) (fun r =>
  Val (if negb (r =? 0) then b + 1 else b))).
Definition block_sizes (M : machine) (g : list Z) : res (list Z) :=
  mapM (fun mu => block_size (Z.of_nat (get (mgrid M) mu)) (nth mu g 0)) (seq 0 (length (mgrid M))).

(** io_node_coords[mu], lib/qdp_qdpio.cc:88-92. *)
Definition io_node_coord (node_coord block : Z) : res Z :=
  bind (c_div node_coord block) (fun q => Val (q * block)).

(** io_node(node) of the multi-node build, lib/qdp_qdpio.cc:53-97. *)
Definition io_node (M : machine) (grid : io_grid) (node : nat) : res nat :=
  match grid with
  | None => Val node                                                    (* lines 58-60 *)
  | Some g =>
      if numIONodeGrid g =? 1 then Val master_io_node                   (* lines 63-65 *)
      else
        bind (block_sizes M g) (fun bs =>
        let node_coords := coord_of M node in                           (* line 83 *)
        bind (mapM (fun mu => io_node_coord (Z.of_nat (get node_coords mu)) (nth mu bs 0))
                   (seq 0 (length (mgrid M)))) (fun cs =>
        Val (node_of M (map Z.to_nat cs))))                             (* line 96 *)
  end.

(** io_node of the single-process build: the grid is always defined and has one I/O node,
    lib/qdp_scalar_layout.cc:124-134, so the shortcut of lib/qdp_qdpio.cc:63-65 applies. *)
Definition io_node_single (node : nat) : res nat := Val master_io_node.

(** io_node_multifile, lib/qdp_qdpio.cc:101-104. *)
Definition io_node_multifile (node : nat) : nat := node.

(** Model of the site layouts of qdpxx.

    Coordinates, extents and site numbers are natural numbers and coordinate vectors are
    lists of naturals (multi1d<int> in the code).  SIMPLIFICATION: the code uses 32-bit
    int; the model is exact as long as the lattice volume fits an int (LayoutInt.v states
    and proves that condition). *)
From Coq Require Import List Arith Bool.
Import ListNotations.

(** Vector access.  multi1d<T>::operator[] (include/qdp_multi.h:110-120, unchecked).
    Reading out of range is undefined behaviour in the code; here it gives 0, and every
    theorem about vectors carries the length of the vector so that it never matters. *)
Definition get (l : list nat) (i : nat) : nat := nth i l 0.

(** Vector update, [coord[i] = v]. *)
Fixpoint upd (i v : nat) (l : list nat) : list nat :=
  match l, i with
  | [], _ => []
  | _ :: l', 0 => v :: l'
  | x :: l', S i' => x :: upd i' v l'
  end.

(** The build-time layout choice: QDP_USE_LEXICO_LAYOUT, QDP_USE_CB2_LAYOUT,
    QDP_USE_CB3D_LAYOUT, QDP_USE_CB32_LAYOUT (lib/qdp_scalar_layout.cc:276,303,358,422;
    lib/qdp_parscalar_layout.cc:391,453,546,649). *)
Inductive layout_kind := LEXICO | CB2 | CB3D | CB32.

(** The volume, [vol *= nrow[i]]: lib/qdp_scalar_layout.cc:196-199,
    lib/qdp_parscalar_layout.cc:245-247. *)
Definition vol (L : list nat) : nat := fold_left Nat.mul L 1.

(** The order in which the loop of crtesn visits the dimensions.
    lib/qdp_layout.cc:139 (i = 0 .. size-1) and, for the 3-d checkerboard build,
    lib/qdp_layout.cc:74,86-88 (i = size-1 .. 2*size-2, ix = i % size). *)
Definition crt_dims (k : layout_kind) (n : nat) : list nat :=
  match k with
  | CB3D => map (fun i => i mod n) (seq (n - 1) n)
  | _ => seq 0 n
  end.

(** One iteration: coord[ix] = ipos % latt_size[ix]; ipos = ipos / latt_size[ix].
    lib/qdp_layout.cc:88-91 and 141-142. *)
Definition crt_step (L : list nat) (st : nat * list nat) (ix : nat) : nat * list nat :=
  let (ipos, coord) := st in
  (ipos / get L ix, upd ix (ipos mod get L ix) coord).

(** crtesn: lib/qdp_layout.cc:71-95 and 125-146.  The freshly allocated [coord] has
    unspecified contents in the code; zeros here (all entries are overwritten). *)
Definition crtesn (k : layout_kind) (ipos : nat) (L : list nat) : list nat :=
  snd (fold_left (crt_step L) (crt_dims k (length L)) (ipos, repeat 0 (length L))).

(** local_site: lib/qdp_layout.cc:153-163 and, for the 3-d checkerboard build, 102-119.
    There [(mmu-1) % size] with mmu = 0 is -1 in C and is wrapped to size-1. *)
Definition local_site (k : layout_kind) (coord L : list nat) : nat :=
  let n := length L in
  match k with
  | CB3D =>
      fold_left
        (fun order mmu =>
           let wrapmu := if mmu =? 0 then n - 1 else mmu - 1 in
           get L wrapmu * (get coord mmu + order))
        (rev (seq 0 (n - 1))) 0
      + get coord (n - 1)
  | _ =>
      fold_left (fun order mmu => get L (mmu - 1) * (get coord mmu + order))
        (rev (seq 1 (n - 1))) 0
      + get coord 0
  end.

(** ** Single-process layouts: lib/qdp_scalar_layout.cc *)

(** lib/qdp_scalar_layout.cc:287-290 *)
Definition sc_lexico (L : list nat) (linearsite : nat) : list nat :=
  crtesn LEXICO linearsite L.

(** lib/qdp_scalar_layout.cc:294-297 *)
Definition ls_lexico (L coord : list nat) : nat := local_site LEXICO coord L.

(** lib/qdp_scalar_layout.cc:314-331 *)
Definition sc_cb2 (L : list nat) (linearsite : nat) : list nat :=
  let vol_cb := Nat.shiftr (vol L) 1 in
  let cb_nrow := upd 0 (Nat.shiftr (get L 0) 1) L in
  let cb := linearsite / vol_cb in
  let coord := crtesn CB2 (linearsite mod vol_cb) cb_nrow in
  let cbb := fold_left (fun s m => s + get coord m) (seq 1 (length coord - 1)) cb in
  let cbb := Nat.land cbb 1 in
  upd 0 (2 * get coord 0 + cbb) coord.

(** lib/qdp_scalar_layout.cc:335-351 *)
Definition ls_cb2 (L coord : list nat) : nat :=
  let vol_cb := Nat.shiftr (vol L) 1 in
  let cb_nrow := upd 0 (Nat.shiftr (get L 0) 1) L in
  let cb_coord := upd 0 (Nat.shiftr (get coord 0) 1) coord in
  let cb := fold_left (fun s m => s + get coord m) (seq 0 (length coord)) 0 in
  let cb := Nat.land cb 1 in
  local_site CB2 cb_coord cb_nrow + cb * vol_cb.

(** lib/qdp_scalar_layout.cc:374-394 *)
Definition sc_cb3d (L : list nat) (linearsite : nat) : list nat :=
  let vol_cb := vol L / 2 in
  let cb_nrow := upd 0 (get L 0 / 2) L in
  let cb := linearsite / vol_cb in
  let coord := crtesn CB3D (linearsite mod vol_cb) cb_nrow in
  let cbb := fold_left (fun s m => s + get coord m) (seq 1 (length coord - 1 - 1)) cb in
  let cbb := Nat.land cbb 1 in
  upd 0 (2 * get coord 0 + cbb) coord.

(** lib/qdp_scalar_layout.cc:398-416 *)
Definition ls_cb3d (L coord : list nat) : nat :=
  let vol_cb := vol L / 2 in
  let cb_nrow := upd 0 (get L 0 / 2) L in
  let cb_coord := upd 0 (get coord 0 / 2) coord in
  let cb := fold_left (fun s m => s + get coord m) (seq 0 (length coord - 1)) 0 in
  let cb := Nat.land cb 1 in
  local_site CB3D cb_coord cb_nrow + cb * vol_cb.

(** cb_nrow of the 32-style layout: lib/qdp_scalar_layout.cc:436-439, 466-469. *)
Definition cb32_nrow (L : list nat) : list nat :=
  map (fun i => if i =? 0 then Nat.shiftr (get L 0) 2 else Nat.shiftr (get L i) 1)
      (seq 0 (length L)).

(** lib/qdp_scalar_layout.cc:433-459.  Nd is the length of the extent vector
    (create aborts otherwise, line 193). *)
Definition sc_cb32 (L : list nat) (linearsite : nat) : list nat :=
  let Nd := length L in
  let vol_cb := Nat.shiftr (vol L) (Nd + 1) in
  let subl := linearsite / vol_cb in
  let coord := crtesn CB32 (linearsite mod vol_cb) (cb32_nrow L) in
  let cb := fold_left (fun s m => s + get coord m) (seq 1 (Nd - 1)) 0 in
  let cb := Nat.land cb 1 in
  let coord := upd 0 (Nat.shiftl (get coord 0) 2) coord in
  let coord := fold_left (fun c m => upd m (Nat.shiftl (get c m) 1) c) (seq 1 (Nd - 1)) coord in
  let subl := Nat.lxor subl (Nat.shiftl cb Nd) in
  let coord := fold_left
      (fun c m => upd m (Nat.lxor (get c m)
                           (Nat.shiftr (Nat.land subl (Nat.shiftl 1 m)) m)) c)
      (seq 0 Nd) coord in
  upd 0 (Nat.lxor (get coord 0)
           (Nat.shiftr (Nat.land subl (Nat.shiftl 1 Nd)) (Nd - 1))) coord.

(** lib/qdp_scalar_layout.cc:463-489 *)
Definition ls_cb32 (L coord : list nat) : nat :=
  let Nd := length L in
  let vol_cb := Nat.shiftr (vol L) (Nd + 1) in
  let subl := fold_left (fun s m => Nat.shiftl s 1 + Nat.land (get coord m) 1)
                (rev (seq 0 (Nd - 1))) (Nat.land (get coord (Nd - 1)) 1) in
  let cb := fold_left (fun s m => s + Nat.shiftr (get coord m) 1) (seq 0 Nd) 0 in
  let subl := subl + Nat.shiftl (Nat.land cb 1) Nd in
  let cb_coord := map (fun i => if i =? 0 then Nat.shiftr (get coord 0) 2
                                else Nat.shiftr (get coord i) 1) (seq 0 Nd) in
  local_site CB32 cb_coord (cb32_nrow L) + subl * vol_cb.

(** Layout::siteCoords(node,linear) of the single-process build (node is ignored). *)
Definition siteCoords1 (k : layout_kind) (L : list nat) : nat -> list nat :=
  match k with
  | LEXICO => sc_lexico L | CB2 => sc_cb2 L | CB3D => sc_cb3d L | CB32 => sc_cb32 L
  end.

(** Layout::linearSiteIndex(coord) of the single-process build. *)
Definition linearSiteIndex1 (k : layout_kind) (L : list nat) : list nat -> nat :=
  match k with
  | LEXICO => ls_lexico L | CB2 => ls_cb2 L | CB3D => ls_cb3d L | CB32 => ls_cb32 L
  end.

(** The self-check loop of Layout::create, lib/qdp_scalar_layout.cc:243-263: [false] is
    QDP_error_exit.  (The loop is an omp parallel for; its iterations only read.) *)
Definition create1_check (k : layout_kind) (L : list nat) : bool :=
  forallb (fun i => i =? linearSiteIndex1 k L (siteCoords1 k L i)) (seq 0 (vol L)).

(** Integer division by zero (a fatal signal in the code) is a separate outcome of create:
    siteCoords divides by vol_cb (lib/qdp_scalar_layout.cc:320,380,441) and crtesn by every
    extent it is given (lib/qdp_layout.cc:90-91,141-142). *)
Definition has_zero (L : list nat) : bool := existsb (fun l => l =? 0) L.
Definition divides_by_zero (k : layout_kind) (L : list nat) : bool :=
  match k with
  | LEXICO => has_zero L
  | CB2 => (Nat.shiftr (vol L) 1 =? 0) || has_zero (upd 0 (Nat.shiftr (get L 0) 1) L)
  | CB3D => (vol L / 2 =? 0) || has_zero (upd 0 (get L 0 / 2) L)
  | CB32 => (Nat.shiftr (vol L) (length L + 1) =? 0) || has_zero (cb32_nrow L)
  end.

Inductive create_outcome := Created | Aborted | DivideByZero.

(** Layout::create of the single-process build, lib/qdp_scalar_layout.cc:188-271, as far
    as the acceptance of the lattice size is concerned. *)
Definition create1 (k : layout_kind) (L : list nat) : create_outcome :=
  if vol L =? 0 then Created
  else if divides_by_zero k L then DivideByZero
  else if create1_check k L then Created else Aborted.

(** ** Multi-node layouts: lib/qdp_parscalar_layout.cc *)

(** The machine: logical grid shape and QMP's node numbering
    (Layout::getNodeNumberFrom, getLogicalCoordFrom, lib/qdp_parscalar_layout.cc:131-151).
    QMP itself is not modelled: the two functions are data. *)
Record machine := {
  mgrid : list nat;                  (* QMP_get_logical_dimensions, line 285 *)
  node_of : list nat -> nat;         (* QMP_get_node_number_from *)
  coord_of : nat -> list nat         (* QMP_get_logical_coordinates_from *)
}.

(** numNodes(): the product of the logical dimensions. *)
Definition num_nodes (M : machine) : nat := vol (mgrid M).

(** subgrid_nrow[i] = nrow[i] / logical_size[i]; lib/qdp_parscalar_layout.cc:294-301. *)
Definition subgrid (M : machine) (L : list nat) : list nat :=
  map (fun i => get L i / get (mgrid M) i) (seq 0 (length L)).

(** sitesOnNode(): lib/qdp_parscalar_layout.cc:292,300. *)
Definition sites_on_node (M : machine) (L : list nat) : nat := vol (subgrid M L).

(** nodeNumber(coord), the same text in all layouts:
    lib/qdp_parscalar_layout.cc:412-420, 487-495, 581-589. *)
Definition nodeNumberP (M : machine) (L coord : list nat) : nat :=
  node_of M (map (fun i => get coord i / get (subgrid M L) i) (seq 0 (length L))).

(** coord *= subgridLattSize(): elementwise, multi1d<T>::operator*=. *)
Definition vmul (a b : list nat) : list nat :=
  map (fun i => get a i * get b i) (seq 0 (length a)).
Definition vadd (a b : list nat) : list nat :=
  map (fun i => get a i + get b i) (seq 0 (length a)).

(** lib/qdp_parscalar_layout.cc:399-407 *)
Definition lsP_lexico (M : machine) (L coord : list nat) : nat :=
  local_site LEXICO
    (map (fun i => get coord i mod get (subgrid M L) i) (seq 0 (length L))) (subgrid M L).

(** lib/qdp_parscalar_layout.cc:425-437 *)
Definition scP_lexico (M : machine) (L : list nat) (node linear : nat) : list nat :=
  vadd (vmul (coord_of M node) (subgrid M L)) (crtesn LEXICO linear (subgrid M L)).

(** lib/qdp_parscalar_layout.cc:461-478 *)
Definition lsP_cb2 (M : machine) (L coord : list nat) : nat :=
  let Nd := length L in
  let subgrid_vol_cb := Nat.shiftr (sites_on_node M L) 1 in
  let cb_nrow := upd 0 (Nat.shiftr (get (subgrid M L) 0) 1) (subgrid M L) in
  let cb := Nat.land (fold_left (fun s m => s + get coord m) (seq 0 Nd) 0) 1 in
  let cb_coord := map (fun i => if i =? 0 then Nat.shiftr (get coord 0) 1 mod get cb_nrow 0
                                else get coord i mod get cb_nrow i) (seq 0 Nd) in
  local_site CB2 cb_coord cb_nrow + cb * subgrid_vol_cb.

(** lib/qdp_parscalar_layout.cc:503-529 *)
Definition scP_cb2 (M : machine) (L : list nat) (node linearsite : nat) : list nat :=
  let Nd := length L in
  let subgrid_vol_cb := Nat.shiftr (sites_on_node M L) 1 in
  let cb_nrow := upd 0 (Nat.shiftr (get (subgrid M L) 0) 1) (subgrid M L) in
  let coord := vmul (coord_of M node) (subgrid M L) in
  let cb := linearsite / subgrid_vol_cb in
  let tmp := crtesn CB2 (linearsite mod subgrid_vol_cb) cb_nrow in
  let coord := upd 0 (get coord 0 + 2 * get tmp 0) coord in
  let coord := fold_left (fun c m => upd m (get c m + get tmp m) c) (seq 1 (Nd - 1)) coord in
  let cbb := fold_left (fun s m => s + get coord m) (seq 1 (Nd - 1)) cb in
  upd 0 (get coord 0 + Nat.land cbb 1) coord.

(** lib/qdp_parscalar_layout.cc:554-572 *)
Definition lsP_cb3d (M : machine) (L coord : list nat) : nat :=
  let Nd := length L in
  let subgrid_vol_cb := sites_on_node M L / 2 in
  let cb_nrow := upd 0 (get (subgrid M L) 0 / 2) (subgrid M L) in
  let cb := Nat.land (fold_left (fun s m => s + get coord m) (seq 0 (Nd - 1)) 0) 1 in
  let cb_coord := map (fun i => if i =? 0 then (get coord 0 / 2) mod get cb_nrow 0
                                else get coord i mod get cb_nrow i) (seq 0 Nd) in
  local_site CB3D cb_coord cb_nrow + cb * subgrid_vol_cb.

(** lib/qdp_parscalar_layout.cc:597-630 *)
Definition scP_cb3d (M : machine) (L : list nat) (node linearsite : nat) : list nat :=
  let Nd := length L in
  let subgrid_vol_cb := sites_on_node M L / 2 in
  let cb_nrow := upd 0 (get (subgrid M L) 0 / 2) (subgrid M L) in
  let coord := vmul (coord_of M node) (subgrid M L) in
  let cb := linearsite / subgrid_vol_cb in
  let tmp := crtesn CB3D (linearsite mod subgrid_vol_cb) cb_nrow in
  let coord := upd 0 (get coord 0 + 2 * get tmp 0) coord in
  let coord := fold_left (fun c m => upd m (get c m + get tmp m) c) (seq 1 (Nd - 1)) coord in
  let cbb := fold_left (fun s m => s + get coord m) (seq 1 (Nd - 1 - 1)) cb in
  upd 0 (get coord 0 + Nat.land cbb 1) coord.

(** Layout::linearSiteIndex and Layout::siteCoords of the multi-node build.  There is no
    32-style multi-node layout: the code has an #error there
    (lib/qdp_parscalar_layout.cc:653), so CB32 is mapped to CB2 and excluded by
    [par_kind]. *)
Definition linearSiteIndexP (k : layout_kind) (M : machine) (L : list nat)
  : list nat -> nat :=
  match k with LEXICO => lsP_lexico M L | CB3D => lsP_cb3d M L | _ => lsP_cb2 M L end.
Definition siteCoordsP (k : layout_kind) (M : machine) (L : list nat)
  : nat -> nat -> list nat :=
  match k with LEXICO => scP_lexico M L | CB3D => scP_cb3d M L | _ => scP_cb2 M L end.
Definition par_kind (k : layout_kind) : bool := match k with CB32 => false | _ => true end.

(** minimalLayoutMapping: lib/qdp_parscalar_layout.cc:442-448, 534-541, 635-643. *)
Definition min_dim (k : layout_kind) (n : nat) : list nat :=
  match k with LEXICO => repeat 1 n | _ => upd 0 2 (repeat 1 n) end.

(** The acceptance tests of the multi-node create, lib/qdp_parscalar_layout.cc:260-271. *)
Definition createP_check (k : layout_kind) (M : machine) (L : list nat) : bool :=
  (vol L mod num_nodes M =? 0) &&
  forallb (fun i => get L i mod get (min_dim k (length L)) i =? 0) (seq 0 (length L)).

(** ** The layout interface used by the rest of the library
    (include/qdp_layout.h: nodeNumber, linearSiteIndex, siteCoords, sitesOnNode, vol,
    lattSize) together with the lexicographic numbering of the build. *)
Record layout := {
  l_kind : layout_kind;
  l_size : list nat;                       (* lattSize() *)
  l_nodes : nat;                           (* numNodes() *)
  l_sites : nat;                           (* sitesOnNode() *)
  l_node : list nat -> nat;                (* nodeNumber(coord) *)
  l_lin : list nat -> nat;                 (* linearSiteIndex(coord) *)
  l_coord : nat -> nat -> list nat         (* siteCoords(node,linear) *)
}.

(** Single-process build: lib/qdp_scalar_layout.cc:83,93,96,99 (nodeNumber is 0, one
    node, sitesOnNode = vol). *)
Definition scalar_layout (k : layout_kind) (L : list nat) : layout :=
  {| l_kind := k; l_size := L; l_nodes := 1; l_sites := vol L;
     l_node := fun _ => 0; l_lin := linearSiteIndex1 k L;
     l_coord := fun _ => siteCoords1 k L |}.

(** Multi-node build. *)
Definition par_layout (k : layout_kind) (M : machine) (L : list nat) : layout :=
  {| l_kind := k; l_size := L; l_nodes := num_nodes M; l_sites := sites_on_node M L;
     l_node := nodeNumberP M L; l_lin := linearSiteIndexP k M L;
     l_coord := siteCoordsP k M L |}.

(** linearSiteIndex(int lexicosite): lib/qdp_scalar_layout.cc:163-166,
    lib/qdp_parscalar_layout.cc:171-176. *)
Definition l_lin_lex (lay : layout) (site : nat) : nat :=
  l_lin lay (crtesn (l_kind lay) site (l_size lay)).

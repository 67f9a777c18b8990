(** Model of lattice datasets in HDF5 files: lib/qdp_hdf5.cc and include/qdp_hdf5.h
    (prefetchLatticeCoordinates, CvtToHost, CvtToLayout, writeLattice, readLattice and the write and read
    functions of lattice objects built on them).

    HDF5 is another library; its side of the calls is the contract in section "HDF5".  A field is, as in
    LatIoModel.v, a function from node and local index to the words stored there.  Conversions between
    float and double ([conv]) are a parameter.  A file is read on machines with the byte order of the
    machine that wrote it; products of sizes fit size_t; allocations succeed; committed type names,
    attributes, chunking and profiling are not modelled here.  Sites hold 3 colours and 4 spins in
    the typed datasets. *)
From Coq Require Import List Arith NArith Bool.
From Verif Require Import Base LayoutModel LayoutSpec CrcModel LatIoModel.
Import ListNotations.
Local Open Scope nat_scope.

(** ** HDF5 *)

(** The datatypes that occur: a float of the given size, arrays 3x3 of complex ({r,i} compounds), arrays
    4x4 of these; H5Tget_size, and the float they are made of (createComplexType, createColorMatrixType,
    createPropagatorType, lib/qdp_hdf5.cc:306-400). *)
Inductive h5t := HFloat (n : nat) | HColMat (n : nat) | HProp (n : nat).
Definition h5base (t : h5t) : nat := match t with HFloat n | HColMat n | HProp n => n end.
Definition h5size (t : h5t) : nat := match t with HFloat n => n | HColMat n => 18 * n | HProp n => 288 * n end.

(** A dataset: extents, datatype, and the element at each index; [None]: never written (HDF5 reads
    zero bytes there). *)
Record dset := mkD { d_dims : list nat; d_ty : h5t; d_val : list nat -> option (list N) }.

(** Indices in row-major order and the number of an index in that order. *)
Fixpoint row_major (d : list nat) : list (list nat) :=
  match d with [] => [[]] | n :: d' => flat_map (fun i => map (cons i) (row_major d')) (seq 0 n) end.
Fixpoint row_num (d i : list nat) : nat :=
  match d, i with _ :: d', x :: i' => x * volume d' + row_num d' i' | _, _ => 0 end.

(** H5Sselect_hyperslab with start [off] and count [cnt]: does it lie in the extents, is an index in it,
    and the index relative to the start. *)
Fixpoint in_space (dims off cnt : list nat) : bool :=
  match dims, off, cnt with
  | d :: dims', o :: off', c :: cnt' => (o + c <=? d) && in_space dims' off' cnt'
  | [], [], [] => true
  | _, _, _ => false
  end.
Fixpoint in_slab (off cnt i : list nat) : bool :=
  match off, cnt, i with
  | o :: off', c :: cnt', x :: i' => (o <=? x) && (x <? o + c) && in_slab off' cnt' i'
  | [], [], [] => true
  | _, _, _ => false
  end.
Fixpoint rel (off i : list nat) : list nat :=
  match off, i with o :: off', x :: i' => (x - o) :: rel off' i' | _, _ => [] end.
Fixpoint shift (off i : list nat) : list nat :=
  match off, i with o :: off', x :: i' => (o + x) :: shift off' i' | _, _ => [] end.

(** Bytes [p, p+n) of a buffer. *)
Definition chunk {A} (p n : nat) (buf : list A) : list A := firstn n (skipn p buf).

(** H5Dwrite of a memory block with extents [cnt] to the hyperslab: elements in row-major order.  A
    selection outside the extents is an error status, ignored by the library; arrays of another rank are
    read beyond their end; so is a buffer that is too short. *)
Definition h5_write (D : dset) (off cnt : list nat) (buf : list N) : res dset :=
  let es := h5size (d_ty D) in
  if negb (length off =? length (d_dims D)) then Undef
  else if negb (in_space (d_dims D) off cnt) then Val D
  else if length buf <? es * volume cnt then Undef
  else Val (mkD (d_dims D) (d_ty D)
              (fun i => if in_slab off cnt i then Some (chunk (es * row_num cnt (rel off i)) es buf) else d_val D i)).

(** H5Dread into a buffer of [room] bytes, [None] being a byte that is not initialised. *)
Definition h5_elem (D : dset) (i : list nat) : list N :=
  match d_val D i with Some v => v | None => repeat 0%N (h5size (d_ty D)) end.
Definition h5_read (D : dset) (off cnt : list nat) (room : nat) : res (list (option N)) :=
  if negb (length off =? length (d_dims D)) then Undef
  else if negb (in_space (d_dims D) off cnt) then Val (repeat None room)
  else
    let data := concat (map (fun i => h5_elem D (shift off i)) (row_major cnt)) in
    if room <? length data then Undef
    else Val (map Some data ++ repeat None (room - length data)).

(** ** The layout of a node *)

(** Layout::nodeCoord() and Layout::subgridLattSize(). *)
Definition node_coord (b : build) (q : nat) : list nat :=
  match b with Single _ L => repeat 0 (length L) | Multi _ _ M _ => coord_of M q end.
Definition sub_size (b : build) : list nat :=
  match b with Single _ L => L | Multi _ _ M L => subgrid M L end.

(** prefetchLatticeCoordinates: lib/qdp_hdf5.cc:279-299. *)
Definition reordermap (b : build) (q : nat) : list nat :=
  map (l_lin (lay_of b))
    (filter (fun c => l_node (lay_of b) c =? q) (map (crt (lay_of b)) (seq 0 (vol (l_size (lay_of b)))))).

(** The extents and the start of a node's part of a dataset, [inv]: the first direction last;
    [obj] > 1: one more dimension.  lib/qdp_hdf5.cc:816-843 (reading), 2160-2187 (writing). *)
Definition order (inv : bool) (c : list nat) : list nat := if inv then rev c else c.
Definition tail (obj : nat) : list nat := if 1 <? obj then [obj] else [].
Definition tail0 (obj : nat) : list nat := if 1 <? obj then [0] else [].
Definition node_dims (b : build) (inv : bool) (obj : nat) : list nat := order inv (sub_size b) ++ tail obj.
Definition node_offset (b : build) (inv : bool) (obj q : nat) : list nat :=
  order inv (vmul (node_coord b q) (sub_size b)) ++ tail0 obj.

(** while(total_size * unit > two_gb) { dim_size[0] >>= 1; total_size >>= 1; blocks *= 2; }:
    lib/qdp_hdf5.cc:862-871 and 2203-2212.  The loop ends since total_size becomes 0; [fuel] is its
    number of bits. *)
Definition two_gb : N := 2147483648.
Fixpoint split (fuel : nat) (unit total : N) (d0 blocks : nat) : N * nat * nat :=
  match fuel with
  | 0 => (total, d0, blocks)
  | S f => if (two_gb <? total * unit)%N
           then split f unit (N.shiftr total 1) (Nat.shiftr d0 1) (2 * blocks)
           else (total, d0, blocks)
  end.
Definition split_of (unit total d0 : nat) : nat * nat * nat :=
  let '(t, d, n) := split (N.size_nat (N.of_nat total)) (N.of_nat unit) (N.of_nat total) d0 1 in
  (N.to_nat t, d, n).

(** ** Writing *)
Section H5.
  Variable e : endian.
  (** static_cast between floats of the given sizes, on bit patterns. *)
  Variable conv : nat -> nat -> N -> N.
  (** sizeof(REAL) of the build. *)
  Variable real : nat.

  Fixpoint foldM {A S} (f : A -> S -> res S) (l : list A) (s : S) : res S :=
    match l with [] => Val s | a :: l' => bind (f a s) (foldM f l') end.

  (** CvtToHost, include/qdp_hdf5.h:109-125: [n] bytes of every field at every site. *)
  Definition to_host (b : build) (w n : nat) (Fs : list field) (q : nat) : list N :=
    concat (map (fun i => concat (map (fun F : field => chunk 0 n (image e w (F q i))) Fs)) (reordermap b q)).

  (** writeLattice on one node, lib/qdp_hdf5.cc:2152-2233; the dataset is created before. *)
  Definition write_node (b : build) (obj q : nat) (buf : list N) (D : dset) : res dset :=
    let dims := node_dims b true obj in
    let off := node_offset b true obj q in
    let '(total, d0, blocks) := split_of real (h5size (d_ty D) * obj * vol (sub_size b)) (get dims 0) in
    foldM (fun i D => h5_write D ((get off 0 + i * d0) :: tl off) (d0 :: tl dims) (skipn (i * total) buf))
      (seq 0 blocks) D.
  Definition write_nodes (b : build) (ty : h5t) (obj : nat) (bufs : nat -> list N) : res dset :=
    foldM (fun q => write_node b obj q (bufs q)) (seq 0 (l_nodes (lay_of b)))
      (mkD (rev (l_size (lay_of b)) ++ tail obj) ty (fun _ => None)).

  (** write of OLattice<T> and of multi1d< OLattice<T> >, T made of [n] words of [w] bytes:
      include/qdp_hdf5.h:1354-1401, 1412-1469. *)
  Definition write_generic (b : build) (w n : nat) (F : field) : res dset :=
    let obj := n * w / real in
    write_nodes b (HFloat real) obj (to_host b w (real * obj) [F]).
  Definition write_generics (b : build) (w n : nat) (Fs : list field) : res dset :=
    let obj := n * w / real in
    write_nodes b (HFloat real) (obj * length Fs) (to_host b w (real * obj) Fs).

  (** write of LatticeColorMatrixF3 and D3, of LatticePropagatorF3 and D3, of
      multi1d<LatticeColorMatrixD3>: lib/qdp_hdf5.cc:2236-2633. *)
  Definition write_colmat (b : build) (w : nat) (F : field) : res dset :=
    write_nodes b (HColMat w) 1 (to_host b w (18 * w) [F]).
  Definition write_prop (b : build) (w : nat) (F : field) : res dset :=
    write_nodes b (HProp w) 1 (to_host b w (288 * w) [F]).
  Definition write_colmats (b : build) (Fs : list field) : res dset :=
    write_nodes b (HColMat 8) (length Fs) (to_host b 8 (18 * 8) Fs).

  (** ** Reading *)

  (** The local transposition, lib/qdp_hdf5.cc:898-919, for four dimensions; [cs] bytes per site.  With
      fewer than four dimensions locsizes is read beyond its end, with more the temporary buffer is not
      filled. *)
  Definition transpose (sub : list nat) (cs : nat) (buf : list (option N)) : res (list (option N)) :=
    match sub with
    | [lx; ly; lz; lt] =>
        Val (flat_map (fun t => flat_map (fun z => flat_map (fun y => flat_map (fun x =>
          chunk (cs * (t + lt * (z + lz * (y + ly * x)))) cs buf)
          (seq 0 lx)) (seq 0 ly)) (seq 0 lz)) (seq 0 lt))
    | _ => Undef
    end.

  (** readLattice on one node: lib/qdp_hdf5.cc:808-932.  [hs]: size of the base type, [tot]: tot_size. *)
  Definition read_node (b : build) (inv : bool) (hs obj tot q : nat) (D : dset) : res (list (option N)) :=
    let dims := node_dims b inv obj in
    let off := node_offset b inv obj q in
    if negb ((hs =? 4) || (hs =? 8)) then Abort
    else
      let '(total, d0, blocks) := split_of hs tot (get dims 0) in
      bind (mapM (fun i => h5_read D ((get off 0 + i * d0) :: tl off) (d0 :: tl dims) (total * hs)) (seq 0 blocks))
        (fun bufs =>
      let buf := concat bufs ++ repeat None (tot * hs - blocks * (total * hs)) in
      if inv then Val buf else transpose (sub_size b) (tot / vol (sub_size b) * hs) buf).

  (** The bytes of a buffer, if all are initialised. *)
  Definition known (bs : list (option N)) : res (list N) := mapM of_option bs.

  (** Conversion of the precision, include/qdp_hdf5.h:735-748: every word of [hs] bytes to one of [w]. *)
  Definition convert (hs w tot : nat) (buf : list (option N)) : list (option N) :=
    flat_map (fun i => match known (chunk (i * hs) hs buf) with
                       | Val bs => map Some (mem e w (conv hs w (word e bs)))
                       | _ => repeat None w
                       end) (seq 0 tot).

  (** CvtToLayout, include/qdp_hdf5.h:90-106: field [dd] at the site with number [run] of the node gets
      the bytes from (dd + arr*run)*sizeof(T) on.  A buffer that is too short is read beyond its end; a
      value made of bytes that are not initialised is indeterminate. *)
  Definition put_elem (w n : nat) (buf : list (option N)) (q i p : nat) (F : field) : res field :=
    if length buf <? (p + 1) * (n * w) then Undef
    else bind (known (chunk (p * (n * w)) (n * w) buf)) (fun bs => Val (fset F q i (unimage e w n bs))).
  Definition to_layout (b : build) (w n : nat) (buf : list (option N)) (q : nat) (Fs : list field) : res (list field) :=
    foldM (fun r Fs => mapM (fun p => put_elem w n buf q (snd r) (fst p + length Fs * fst r) (snd p))
                         (combine (seq 0 (length Fs)) Fs))
      (combine (seq 0 (vol (sub_size b))) (reordermap b q)) Fs.

  (** The part common to the reading functions: every node reads, converts and reorders. *)
  Definition read_nodes (b : build) (inv : bool) (hs w n obj tot : nat) (D : dset) (Fs : list field) : res (list field) :=
    foldM (fun q Fs =>
      bind (read_node b inv hs obj tot q D) (fun buf =>
      to_layout b w n (if hs =? w then buf else convert hs w tot buf) q Fs)) (seq 0 (l_nodes (lay_of b))) Fs.

  (** sizes[Nd-dd-1] != lattSize()[dd], or sizes[dd] != lattSize()[dd]. *)
  Definition same_lattice (inv : bool) (b : build) (sizes : list nat) : bool :=
    let L := l_size (lay_of b) in
    let Nd := length L in
    forallb (fun dd => get sizes (if inv then Nd - dd - 1 else dd) =? get L dd) (seq 0 Nd).

  (** read of OLattice<T>: include/qdp_hdf5.h:649-763; of multi1d< OLattice<T> >: 766-881 (the array is
      resized; [Z]: its uninitialised members). *)
  Definition read_generic (b : build) (inv : bool) (w n : nat) (D : dset) (F : field) : res (list field) :=
    let hs := h5size (d_ty D) in
    let Nd := length (l_size (lay_of b)) in
    if negb ((hs =? 4) || (hs =? 8)) then Abort
    else if negb (length (d_dims D) =? Nd + 1) then Abort
    else if negb (same_lattice inv b (d_dims D)) then Abort
    else
      let obj := get (d_dims D) Nd in
      read_nodes b inv hs w n obj (obj * vol (sub_size b)) D [F].
  Definition read_generics (b : build) (inv : bool) (w n : nat) (D : dset) (Z : field) : res (list field) :=
    let hs := h5size (d_ty D) in
    let Nd := length (l_size (lay_of b)) in
    if negb ((hs =? 4) || (hs =? 8)) then Abort
    else if negb (length (d_dims D) =? Nd + 1) then Abort
    else if negb (same_lattice inv b (d_dims D)) then Abort
    else
      let arr := get (d_dims D) Nd * w / (n * w) in
      if arr =? 0 then Undef                                     (* obj_size/=arr_size *)
      else
        let obj := get (d_dims D) Nd / arr in
        read_nodes b inv hs w n (obj * arr) (obj * arr * vol (sub_size b)) D (repeat Z arr).

  (** read of LatticeColorMatrixD3, LatticeDiracPropagatorF3, D3: lib/qdp_hdf5.cc:935-1230. *)
  Definition read_colmat (b : build) (inv : bool) (D : dset) (F : field) : res (list field) :=
    match d_ty D with
    | HColMat hs =>
        if negb (length (d_dims D) =? length (l_size (lay_of b))) then Abort
        else if negb (same_lattice inv b (d_dims D)) then Abort
        else read_nodes b inv hs 8 18 1 (vol (sub_size b) * 18) D [F]
    | _ => Abort
    end.
  Definition read_prop (b : build) (inv : bool) (w : nat) (D : dset) (F : field) : res (list field) :=
    match d_ty D with
    | HProp hs =>
        if negb (length (d_dims D) =? length (l_size (lay_of b))) then Abort
        else if negb (same_lattice inv b (d_dims D)) then Abort
        else read_nodes b inv hs w 288 1 (vol (sub_size b) * 288) D [F]
    | _ => Abort
    end.
  (** read of multi1d<LatticeColorMatrixD3>: 1233-1340; sizes[Nd] is read before the number of sizes is
      looked at. *)
  Definition read_colmats (b : build) (inv : bool) (D : dset) (Z : field) : res (list field) :=
    let Nd := length (l_size (lay_of b)) in
    if length (d_dims D) <=? Nd then Undef
    else match d_ty D with
         | HColMat hs =>
             let arr := get (d_dims D) Nd in
             if negb (length (d_dims D) =? Nd + 1) then Abort
             else if negb (same_lattice inv b (d_dims D)) then Abort
             else read_nodes b inv hs 8 18 arr (vol (sub_size b) * arr * 18) D (repeat Z arr)
         | _ => Abort
         end.

  (** LatticeColorMatrixF3 has no read function of its own: the general one is used. *)
  Definition read_colmat_f (b : build) (inv : bool) (D : dset) (F : field) : res (list field) :=
    read_generic b inv 4 18 D F.

  (** writeQlua and readQlua of a gauge field, lib/qdp_hdf5.cc:2634-2684 and 1343-1392: the datasets 0 to
      Nd-1 of a new group are written with write of a colour matrix and read in the order of the
      file. *)
  Definition write_qlua (b : build) (Us : list field) : res (list dset) :=
    if negb (length Us =? length (l_size (lay_of b))) then Abort else mapM (write_colmat b 8) Us.
  Definition read_qlua (b : build) (Ds : list dset) (Z : field) : res (list (list field)) :=
    if negb (length Ds =? length (l_size (lay_of b))) then Abort else mapM (fun D => read_colmat b false D Z) Ds.
End H5.

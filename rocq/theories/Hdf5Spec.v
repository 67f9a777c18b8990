(** Specification for lattice datasets in HDF5 files.  Of the model only the types of builds, fields and
    datasets are used. *)
From Coq Require Import List Arith NArith.
From Verif Require Import LayoutModel LayoutSpec CrcModel LatIoModel LatIoSpec Hdf5Model.
Import ListNotations.
Local Open Scope nat_scope.

(** Sites per node and a node's extent in the last and in the first direction. *)
Definition local_sites (b : build) : nat :=
  match b with Single _ L => volume L | Multi _ _ M L => volume L / volume (mgrid M) end.
Definition local_last (b : build) : nat :=
  match b with Single _ L => last L 0 | Multi _ _ M L => last L 0 / last (mgrid M) 0 end.
Definition local_first (b : build) : nat :=
  match b with Single _ L => get L 0 | Multi _ _ M L => get L 0 / get (mgrid M) 0 end.

(** [total] items of [unit] bytes, halved [k] times, are at most 2 GB, and [k] is the least such number. *)
Definition halvings (unit total k : nat) : Prop :=
  (N.of_nat (total / 2 ^ k) * N.of_nat unit <= 2147483648)%N /\
  forall j, j < k -> (2147483648 < N.of_nat (total / 2 ^ j) * N.of_nat unit)%N.
(** The transfer of [total] items in equal parts of at most 2 GB cuts the extent [d] evenly. *)
Definition cuts (unit total d : nat) : Prop := exists k, halvings unit total k /\ Nat.divide (2 ^ k) d.

(** What a dataset of a lattice object should contain: extents in reverse order and the words of a site;
    the words of a site at the index made of the site's coordinates in reverse order. *)
Definition words_dset (e : endian) (b : build) (w n : nat) (F : field) (D : dset) : Prop :=
  d_dims D = rev (build_size b) ++ [n] /\ d_ty D = HFloat w /\
  forall c j, in_lattice (build_size b) c -> j < n ->
    d_val D (rev c ++ [j]) = Some (mem e w (nth j (field_at b F c) 0%N)).
(** An array: the words of all fields at a site one after the other. *)
Definition words_dsets (e : endian) (b : build) (w n : nat) (Fs : list field) (D : dset) : Prop :=
  d_dims D = rev (build_size b) ++ [n * length Fs] /\ d_ty D = HFloat w /\
  forall c a j F, in_lattice (build_size b) c -> nth_error Fs a = Some F -> j < n ->
    d_val D (rev c ++ [n * a + j]) = Some (mem e w (nth j (field_at b F c) 0%N)).
(** A dataset of one compound element per site. *)
Definition typed_dset (e : endian) (b : build) (ty : h5t) (w : nat) (F : field) (D : dset) : Prop :=
  d_dims D = rev (build_size b) /\ d_ty D = ty /\
  forall c, in_lattice (build_size b) c -> d_val D (rev c) = Some (image e w (field_at b F c)).
(** The same with the coordinates in the order of the file, as other programs store it. *)
Definition plain_dset (e : endian) (L : list nat) (ty : h5t) (w : nat) (v : list nat -> elem) (D : dset) : Prop :=
  d_dims D = L /\ d_ty D = ty /\
  forall c, in_lattice L c -> d_val D c = Some (image e w (v c)).

(** A word of [w] bytes. *)
Definition fits (w : nat) (v : N) : Prop := (v < 2 ^ (8 * N.of_nat w))%N.
(** Words of [hs] bytes seen by a reader whose words have [w] bytes, where [conv] converts. *)
Definition in_precision (conv : nat -> nat -> N -> N) (hs w : nat) (ws : elem) : elem :=
  if hs =? w then ws else map (conv hs w) ws.
Definition converts (conv : nat -> nat -> N -> N) (hs w : nat) : Prop :=
  forall v, fits hs v -> hs <> w -> fits w (conv hs w v).

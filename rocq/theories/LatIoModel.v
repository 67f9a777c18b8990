(** Model of the input and output of lattice fields and of single-site access:
    lib/qdp_parscalar_specific.cc, include/qdp_parscalar_specific.h (multi-node builds),
    include/qdp_scalar_specific.h (single-process builds), include/qdp_disk_map_slice.h.

    Simplifications: a field is a function giving, for a node and a local site, the words of
    that site (sizeof(T)/sizeof(word) of them, as bit patterns); all nodes run in lock step,
    QMP and DML messages deliver the bytes sent; int is [nat] (volumes below 2^31); memory
    allocation succeeds.  Lattice fields with an inner grid (scalarvec) are not modelled. *)
From Coq Require Import List Arith NArith ZArith Bool.
From Verif Require Import Base LayoutModel SetModel CrcModel IoModel.
Import ListNotations.
Local Open Scope nat_scope.

(** One build of the library on one machine: single-process, or multi-node, where [grid] is
    QDPInternal::gridArch() (lib/qdp_parscalar_specific.cc:291). *)
Inductive build :=
| Single (k : layout_kind) (L : list nat)
| Multi (grid : bool) (k : layout_kind) (M : machine) (L : list nat).

Definition lay_of (b : build) : layout :=
  match b with Single k L => scalar_layout k L | Multi _ k M L => par_layout k M L end.
Definition build_kind (b : build) : layout_kind := l_kind (lay_of b).
Definition build_size (b : build) : list nat := l_size (lay_of b).

(** The words of one site; the field: node -> local site -> words. *)
Definition elem := list N.
Definition field := nat -> nat -> elem.
Definition fset (F : field) (q i : nat) (w : elem) : field :=
  fun q' i' => if (q' =? q) && (i' =? i) then w else F q' i'.

(** Memory of one site, and the words found in such memory. *)
Definition image (e : endian) (size : nat) (w : elem) : list N := concat (map (mem e size) w).
Definition unimage (e : endian) (size nmemb : nat) (bs : list N) : elem :=
  map (fun j => word e (firstn size (skipn (j * size) bs))) (seq 0 nmemb).

(** crtesn(site, Layout::lattSize()) *)
Definition crt (lay : layout) (site : nat) : list nat := crtesn (l_kind lay) site (l_size lay).

Section IO.
  (** The byte order of the machine; sizeof(WordType) and the number of words per site. *)
  Variable e : endian.
  Variables size nmemb : nat.

  (** ** Single-process build *)

  (** One bin.writeArray of a site. *)
  Definition write_local (F : field) (i : nat) (st : stream) : res stream :=
    bind (write_array e (image e size (F 0 i)) size nmemb st) (fun p => Val (snd p)).
  (** The loop of write and writeSlice over lexicographic numbers,
      include/qdp_scalar_specific.h:2104-2111 and 2239-2246, and of the subset version
      2130-2140 with the test lat_color[i] == color as [sel]. *)
  Definition write_sites (lay : layout) (sel : nat -> bool) (F : field) (sites : list nat) (st : stream)
    : res stream :=
    write_all (fun site st => let i := l_lin_lex lay site in
                              if sel i then write_local F i st else Val st) sites st.

  (** read and readSlice, include/qdp_scalar_specific.h:2170-2179, 2225-2231, subset
      2204-2214. *)
  Fixpoint read_sites (lay : layout) (sel : nat -> bool) (sites : list nat) (F : field) (st : stream)
    : res (field * stream) :=
    match sites with
    | [] => Val (F, st)
    | site :: r =>
        let i := l_lin_lex lay site in
        if sel i then
          bind (read_array e size nmemb st) (fun '(bs, st1) =>
          read_sites lay sel r (fset F 0 i (unimage e size nmemb bs)) st1)
        else read_sites lay sel r F st
    end.

  (** ** Multi-node build *)

  (** clearToSend(recv_buf, sizeof(int), node), lib/qdp_parscalar_specific.cc:297-307: on a
      machine that is not a grid four bytes are sent from and received into the buffer of
      [len] bytes. *)
  Definition clear_to_send (grid : bool) (len node : nat) : res unit :=
    if negb grid && negb (node =? 0) && (len <? 4) then Undef else Val tt.

  (** site = start, start+xinc, ... < stop. *)
  Definition strips (start stop xinc : nat) : list nat :=
    map (fun j => start + j * xinc) (seq 0 ((stop - start + (xinc - 1)) / xinc)).

  (** The local sites of a strip selected by [sel node], in order: the loops over i of
      lib/qdp_parscalar_specific.cc:410-414, 535-543, 613-617, 874-877 and others. *)
  Definition strip_sites (lay : layout) (sel : nat -> nat -> bool) (xinc node site : nat) : list nat :=
    filter (sel node) (map (fun i => l_lin lay (crt lay (site + i))) (seq 0 xinc)).

  (** The loop of writeOLattice, lib/qdp_parscalar_specific.cc:391-434 (whole lattice, [sel]
      constantly true), 510-565 (subset), and of writeOLatticeSlice 860-893.  The copying is
      done on [node], the node of the first site of the strip; the data then goes to node 0. *)
  Fixpoint write_strips (grid : bool) (lay : layout) (sel : nat -> nat -> bool) (F : field) (xinc old_node : nat)
      (sites : list nat) (st : stream) : res stream :=
    match sites with
    | [] => Val st
    | site :: r =>
        let node := l_node lay (crt lay site) in
        bind (if negb (node =? old_node) then clear_to_send grid (size * nmemb * xinc) node else Val tt) (fun _ =>
        let lins := strip_sites lay sel xinc node site in
        bind (write_array e (concat (map (fun i => image e size (F node i)) lins)) size (nmemb * length lins) st)
          (fun p => write_strips grid lay sel F xinc node r (snd p)))
    end.

  (** The copying loop of the reading functions. *)
  Fixpoint scatter (node : nat) (lins : list nat) (bs : list N) (F : field) : field :=
    match lins with
    | [] => F
    | i :: r => scatter node r (skipn (size * nmemb) bs)
                  (fset F node i (unimage e size nmemb (firstn (size * nmemb) bs)))
    end.

  (** The loop of readOLattice, lib/qdp_parscalar_specific.cc:588-619, 701-773 (subset), and
      of readOLatticeSlice, 802-833. *)
  Fixpoint read_strips (lay : layout) (sel : nat -> nat -> bool) (xinc : nat) (sites : list nat) (F : field)
      (st : stream) : res (field * stream) :=
    match sites with
    | [] => Val (F, st)
    | site :: r =>
        let node := l_node lay (crt lay site) in
        let lins := strip_sites lay sel xinc node site in
        bind (read_array e size (nmemb * length lins) st) (fun '(bs, st1) =>
        read_strips lay sel xinc r (scatter node lins bs F) st1)
    end.

  (** ** The functions of the interface *)

  (** Layout::subgridLattSize()[0] *)
  Definition xinc_of (M : machine) (L : list nat) : nat := get (subgrid M L) 0.

  (** A slice of the lexicographic numbers start <= site < stop.  The multi-node functions
      abort when stop is not a multiple of xinc, lib/qdp_parscalar_specific.cc:789-793 and
      846-850. *)
  Definition write_slice (b : build) (F : field) (start stop : nat) (st : stream) : res stream :=
    match b with
    | Single k L => write_sites (scalar_layout k L) (fun _ => true) F (seq start (stop - start)) st
    | Multi grid k M L =>
        if negb (stop mod xinc_of M L =? 0) then Abort
        else write_strips grid (par_layout k M L) (fun _ _ => true) F (xinc_of M L) 0 (strips start stop (xinc_of M L)) st
    end.
  Definition read_slice (b : build) (F : field) (start stop : nat) (st : stream) : res (field * stream) :=
    match b with
    | Single k L => read_sites (scalar_layout k L) (fun _ => true) (seq start (stop - start)) F st
    | Multi grid k M L =>
        if negb (stop mod xinc_of M L =? 0) then Abort
        else read_strips (par_layout k M L) (fun _ _ => true) (xinc_of M L) (strips start stop (xinc_of M L)) F st
    end.

  (** write(bin, OLattice) and read(bin, OLattice): include/qdp_scalar_specific.h:2101-2112,
      2166-2179; lib/qdp_parscalar_specific.cc:378-437, 575-622. *)
  Definition write_lattice (b : build) (F : field) (st : stream) : res stream :=
    match b with
    | Single k L => write_sites (scalar_layout k L) (fun _ => true) F (seq 0 (vol L)) st
    | Multi grid k M L =>
        write_strips grid (par_layout k M L) (fun _ _ => true) F (xinc_of M L) 0 (strips 0 (vol L) (xinc_of M L)) st
    end.
  Definition read_lattice (b : build) (F : field) (st : stream) : res (field * stream) :=
    match b with
    | Single k L => read_sites (scalar_layout k L) (fun _ => true) (seq 0 (vol L)) F st
    | Multi grid k M L =>
        read_strips (par_layout k M L) (fun _ _ => true) (xinc_of M L) (strips 0 (vol L) (xinc_of M L)) F st
    end.

  (** write(bin, OSubLattice) and read(bin, OSubLattice): the subset is given by the colouring
      its Set holds on every node (latticeColoring()) and its colour (color()):
      include/qdp_scalar_specific.h:2117-2141, 2195-2215; lib/qdp_parscalar_specific.cc:485-568,
      676-777. *)
  Definition write_subset (b : build) (colours : nat -> list nat) (color : nat) (F : field) (st : stream) : res stream :=
    match b with
    | Single k L => write_sites (scalar_layout k L) (fun i => get (colours 0) i =? color) F (seq 0 (vol L)) st
    | Multi grid k M L =>
        write_strips grid (par_layout k M L) (fun q i => get (colours q) i =? color) F (xinc_of M L) 0
          (strips 0 (vol L) (xinc_of M L)) st
    end.
  Definition read_subset (b : build) (colours : nat -> list nat) (color : nat) (F : field) (st : stream)
    : res (field * stream) :=
    match b with
    | Single k L => read_sites (scalar_layout k L) (fun i => get (colours 0) i =? color) (seq 0 (vol L)) F st
    | Multi grid k M L =>
        read_strips (par_layout k M L) (fun q i => get (colours q) i =? color) (xinc_of M L)
          (strips 0 (vol L) (xinc_of M L)) F st
    end.

  (** write(bin, OLattice, coord) and read(bin, OLattice, coord): one site.
      include/qdp_scalar_specific.h:2146-2152, 2184-2190; lib/qdp_parscalar_specific.cc:440-480,
      626-672 (clearToSend is called unconditionally). *)
  Definition write_site (b : build) (F : field) (coord : list nat) (st : stream) : res stream :=
    match b with
    | Single k L => write_local F (linearSiteIndex1 k L coord) st
    | Multi grid k M L =>
        let node := nodeNumberP M L coord in
        bind (clear_to_send grid (size * nmemb) node) (fun _ =>
        bind (write_array e (image e size (F node (linearSiteIndexP k M L coord))) size nmemb st)
          (fun p => Val (snd p)))
    end.
  Definition read_site (b : build) (F : field) (coord : list nat) (st : stream) : res (field * stream) :=
    bind (read_array e size nmemb st) (fun '(bs, st1) =>
    match b with
    | Single k L => Val (fset F 0 (linearSiteIndex1 k L coord) (unimage e size nmemb bs), st1)
    | Multi grid k M L =>
        Val (fset F (nodeNumberP M L coord) (linearSiteIndexP k M L coord) (unimage e size nmemb bs), st1)
    end).
End IO.

(** TimeSliceIO<T>::setTimeSlice, include/qdp_disk_map_slice.h:50-71: start_lexico and
    stop_lexico; an invalid time throws (here [Abort]).  Nd is the number of dimensions. *)
Definition setTimeSlice (k : layout_kind) (L : list nat) (time_slice : Z) : res (nat * nat) :=
  let tDir := length L - 1 in
  if (time_slice <? 0)%Z || (Z.of_nat (get L tDir) <=? time_slice)%Z then Abort
  else
    let t := Z.to_nat time_slice in
    let coord := upd tDir t (repeat 0 (length L)) in
    Val (local_site k coord L,
         if t =? get L tDir - 1 then vol L else local_site k (upd tDir (t + 1) coord) L).

(** TimeSliceIO construction followed by binaryWrite or binaryRead,
    include/qdp_disk_map_slice.h:44-48, 73-83. *)
Definition write_time_slice e size nmemb (b : build) (F : field) (t : Z) (st : stream) : res stream :=
  bind (setTimeSlice (build_kind b) (build_size b) t) (fun '(start, stop) =>
  write_slice e size nmemb b F start stop st).
Definition read_time_slice e size nmemb (b : build) (F : field) (t : Z) (st : stream) : res (field * stream) :=
  bind (setTimeSlice (build_kind b) (build_size b) t) (fun '(start, stop) =>
  read_slice e size nmemb b F start stop st).

(** ** Single-site access *)

(** sendToPrimaryNode, include/qdp_parscalar_specific.h:45-56: the contents of [dest] on
    every node. *)
Definition sendToPrimaryNode (srcnode : nat) (dest : nat -> elem) : nat -> elem :=
  if negb (srcnode =? 0) then (fun q => if q =? 0 then dest srcnode else dest q) else dest.
(** QDPInternal::broadcast: node 0 to all. *)
Definition broadcast (dest : nat -> elem) : nat -> elem := fun _ => dest 0.

(** peekSite: the result on every node.  include/qdp_scalar_specific.h:1644-1651,
    include/qdp_parscalar_specific.h:1751-1773; [zero] is what zero_rep stores. *)
Definition peekSite (b : build) (zero : elem) (F : field) (coord : list nat) : nat -> elem :=
  match b with
  | Single k L => fun _ => F 0 (linearSiteIndex1 k L coord)
  | Multi _ k M L =>
      let nodenum := nodeNumberP M L coord in
      let dest := fun q => if q =? nodenum then F q (linearSiteIndexP k M L coord) else zero in
      broadcast (sendToPrimaryNode nodenum dest)
  end.

(** pokeSite of the scalar whose value on node q is [r q].
    include/qdp_scalar_specific.h:1682-1687, include/qdp_parscalar_specific.h:1801-1808. *)
Definition pokeSite (b : build) (F : field) (r : nat -> elem) (coord : list nat) : field :=
  match b with
  | Single k L => fset F 0 (linearSiteIndex1 k L coord) (r 0)
  | Multi _ k M L =>
      fun q => if q =? nodeNumberP M L coord then fset F q (linearSiteIndexP k M L coord) (r q) q else F q
  end.

(** QDP_extract and QDP_insert on one node, include/qdp_scalar_specific.h:1696-1729,
    include/qdp_parscalar_specific.h:1819-1854: dest[i] = src.elem(i) and back for the sites
    i of the table; an index outside the array is undefined.  (The loops are omp parallel
    over independent iterations; they run in order here.) *)
Fixpoint QDP_extract (tab : list nat) (src : nat -> elem) (dest : list elem) : res (list elem) :=
  match tab with
  | [] => Val dest
  | i :: r => if i <? length dest
              then QDP_extract r src (firstn i dest ++ src i :: skipn (S i) dest)
              else Undef
  end.
Fixpoint QDP_insert (tab : list nat) (src : list elem) (dest : nat -> elem) : res (nat -> elem) :=
  match tab with
  | [] => Val dest
  | i :: r => bind (of_option (nth_error src i)) (fun w =>
              QDP_insert r src (fun j => if j =? i then w else dest j))
  end.

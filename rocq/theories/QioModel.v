(** Model of lattice and scalar records in QIO files: include/qdp_qdpio.h (site factories, read and
    write of QDPFileReader and QDPFileWriter), lib/qdp_qdpio.cc (layout callbacks, binary buffers) and
    lib/qdp_qio_strings.cc.

    QIO is another library; its side of the calls is the contract below (section QIO).  A field is, as
    in LatIoModel.v, a function from node and local index to the words stored there.  Conversions
    between float and double are parameters.  User XML, type names, checksums, several records per file
    and the split of a file over I/O nodes are not modelled; the sizes of a lattice fit an int. *)
From Coq Require Import List Arith NArith Bool.
From Verif Require Import Base LayoutModel CrcModel LatIoModel LatIoSpec.
Import ListNotations.
Local Open Scope nat_scope.

(** WordType of a QDP type, and the precision string QIOStringTraits<WordType>::tprec:
    include/qdp_qdpio.h:117-129, lib/qdp_qio_strings.cc:28-36. *)
Inductive wt := Float | Double | Int | Other (size : nat).
Inductive prec := PF | PD | PI | PU.
Definition tprec (w : wt) : prec := match w with Float => PF | Double => PD | Int => PI | Other _ => PU end.
(** sizeof(WordType). *)
Definition wsize (w : wt) : nat := match w with Float => 4 | Double => 8 | Int => 4 | Other n => n end.
(** SinglePrecType, DoublePrecType: include/qdp_traits.h:36-73. *)
Definition single (w : wt) : wt := match w with Double => Float | _ => w end.
Definition double (w : wt) : wt := match w with Float => Double | _ => w end.

(** The primitive type T of a lattice or scalar: its words, NumColors and NumSpins. *)
Record ty := mkTy { t_word : wt; t_nmemb : nat; t_colors : nat; t_spins : nat }.
Definition sizeof (t : ty) : nat := t_nmemb t * wsize (t_word t).
Definition with_word (t : ty) (w : wt) : ty := mkTy w (t_nmemb t) (t_colors t) (t_spins t).

(** ** QIO *)
Section QIO.
  (** The byte order of the machine that runs the library. *)
  Variable e : endian.

  (** The record types and what a record keeps: QIO_create_record_info's arguments and the data.
      Words are stored most significant byte first. *)
  Inductive rtype := Global | Field | Hyper (lower upper : list nat).
  Record record := mkRec {
    r_type : rtype; r_prec : prec; r_colors : nat; r_spins : nat;
    r_typesize : nat; r_count : nat; r_latsize : list nat; r_bytes : list N }.

  (** Sites of a hypercube record, both corners included. *)
  Definition in_box (lower upper c : list nat) : bool :=
    forallb (fun mu => (get lower mu <=? get c mu) && (get c mu <=? get upper mu)) (seq 0 (length lower)).
  Definition record_sites (L : list nat) (t : rtype) : list (list nat) :=
    match t with Hyper lo hi => filter (in_box lo hi) (all_sites L) | _ => all_sites L end.

  (** Conversion between memory and file order, word by word. *)
  Definition swap_words (ws : nat) (bs : list N) : list N :=
    match e with
    | BigE => bs
    | LittleE => concat (map (fun j => rev (firstn ws (skipn (j * ws) bs))) (seq 0 (length bs / ws)))
    end.

  (** QIO_write calls [get node index count], count the number of data per site, with a buffer of
      [datum] bytes, once per site on the node that holds it, or once with index 0 on the master node
      for a global record.  [None]: an error status. *)
  Definition qio_write (lay : layout) (t : rtype) (p : prec) (colors spins typesize count : nat)
             (get : nat -> nat -> nat -> res (list N)) (datum ws : nat) : res (option record) :=
    if negb (typesize * count =? datum) then Val None
    else
      bind (match t with
            | Global => mapM (fun _ => get 0 0 count) [tt]
            | _ => mapM (fun c => get (l_node lay c) (l_lin lay c) count) (record_sites (l_size lay) t)
            end) (fun bufs =>
      if forallb (fun b => length b =? datum) bufs
      then Val (Some (mkRec t p colors spins typesize count (l_size lay) (concat (map (swap_words ws) bufs))))
      else Undef).

  (** QIO_read_record_data refuses a record of another lattice or of another number of bytes per site;
      otherwise it calls [put node index count buffer] per site on the node that holds the site, or on
      every node for a global record.  An error status makes QDPFileReader abort. *)
  Fixpoint put_sites {S} (put : nat -> nat -> nat -> list N -> S -> res S) (ps : list (nat * nat))
           (count datum ws : nat) (bytes : list N) (s : S) : res S :=
    match ps with
    | [] => Val s
    | p :: ps' =>
        if length bytes <? datum then Abort
        else bind (put (fst p) (snd p) count (swap_words ws (firstn datum bytes)) s) (fun s' =>
             put_sites put ps' count datum ws (skipn datum bytes) s')
    end.
  Fixpoint put_nodes {S} (put : nat -> nat -> nat -> list N -> S -> res S) (nodes : list nat)
           (count : nat) (buf : list N) (s : S) : res S :=
    match nodes with
    | [] => Val s
    | q :: ns => bind (put q 0 count buf s) (fun s' => put_nodes put ns count buf s')
    end.
  Definition qio_read {S} (lay : layout) (r : record) (put : nat -> nat -> nat -> list N -> S -> res S)
             (datum ws : nat) (s : S) : res S :=
    if negb (r_typesize r * r_count r =? datum) then Abort
    else match r_type r with
         | Global =>
             if length (r_bytes r) <? datum then Abort
             else put_nodes put (seq 0 (l_nodes lay)) (r_count r) (swap_words ws (firstn datum (r_bytes r))) s
         | t =>
             if list_eq_dec Nat.eq_dec (r_latsize r) (l_size lay)
             then put_sites put (map (fun c => (l_node lay c, l_lin lay c)) (record_sites (l_size lay) t))
                    (r_count r) datum ws (r_bytes r) s
             else Abort
         end.

  (** ** The site factories *)

  (** QDPOScalarFactoryGet, QDPOLatticeFactoryGet: include/qdp_qdpio.h:1036-1045, 1377-1385.  [n]: the
      number of objects T behind the pointer. *)
  Definition factory_get (t : ty) (n : nat) (F : field) (q linear count : nat) : res (list N) :=
    if linear + count <=? n
    then Val (concat (map (fun j => image e (wsize (t_word t)) (F q (linear + j))) (seq 0 count)))
    else Undef.
  (** QDPOLatticeFactoryGetArray: 1397-1409; [count] is ignored. *)
  Definition factory_get_array (t : ty) (n : nat) (Fs : list field) (q linear count : nat) : res (list N) :=
    if linear <? n then Val (concat (map (fun F : field => image e (wsize (t_word t)) (F q linear)) Fs)) else Undef.

  (** QDPOScalarFactoryPut, QDPOLatticeFactoryPut: 826-833, 1176-1183: copies count * sizeof(T) bytes
      out of the buffer. *)
  Definition elem_at (t : ty) (buf : list N) (j : nat) : elem :=
    unimage e (wsize (t_word t)) (t_nmemb t) (skipn (j * sizeof t) buf).
  Definition factory_put (t : ty) (n : nat) (q linear count : nat) (buf : list N) (F : field) : res field :=
    if (count * sizeof t <=? length buf) && (linear + count <=? n)
    then Val (fold_left (fun F j => fset F q (linear + j) (elem_at t buf j)) (seq 0 count) F)
    else Undef.
  (** QDPOLatticeFactoryPutArray: 1195-1206. *)
  Definition factory_put_array (t : ty) (n : nat) (q linear count : nat) (buf : list N) (Fs : list field)
    : res (list field) :=
    if (length Fs * sizeof t <=? length buf) && (linear <? n)
    then Val (map (fun p => fset (snd p) q linear (elem_at t buf (fst p))) (combine (seq 0 (length Fs)) Fs))
    else Undef.

  (** ** Writing *)

  (** QDPFileWriter::write of an OLattice, 1420-1455; of a hypercube, 1468-1511. *)
  Definition write_lattice (b : build) (t : ty) (F : field) : res (option record) :=
    qio_write (lay_of b) Field (tprec (t_word t)) (t_colors t) (t_spins t) (sizeof t) 1
      (factory_get t (l_sites (lay_of b)) F) (sizeof t) (wsize (t_word t)).
  Definition write_hyper (b : build) (t : ty) (F : field) (lower upper : list nat) : res (option record) :=
    if negb (length lower =? length upper) then Abort
    else qio_write (lay_of b) (Hyper lower upper) (tprec (t_word t)) (t_colors t) (t_spins t) (sizeof t) 1
           (factory_get t (l_sites (lay_of b)) F) (sizeof t) (wsize (t_word t)).
  (** of an array of OLattice, 1521-1558. *)
  Definition write_lattices (b : build) (t : ty) (Fs : list field) : res (option record) :=
    qio_write (lay_of b) Field (tprec (t_word t)) (t_colors t) (t_spins t) (sizeof t) (length Fs)
      (factory_get_array t (l_sites (lay_of b)) Fs) (length Fs * sizeof t) (wsize (t_word t)).
  (** of an OScalar, 1055-1090, and of an array of [n] OScalars, 1117-1154. *)
  Definition write_scalar (b : build) (t : ty) (F : field) : res (option record) :=
    qio_write (lay_of b) Global (tprec (t_word t)) (t_colors t) (t_spins t) (sizeof t) 1
      (factory_get t 1 F) (sizeof t) (wsize (t_word t)).
  Definition write_scalars (b : build) (t : ty) (n : nat) (F : field) : res (option record) :=
    qio_write (lay_of b) Global (tprec (t_word t)) (t_colors t) (t_spins t) (sizeof t) n
      (factory_get t n F) (n * sizeof t) (wsize (t_word t)).

  (** A BinaryBufferWriter, lib/qdp_qdpio.cc:526-567: the bytes of the string on the master node. *)
  Definition t_char : ty := mkTy (Other 1) 1 0 0.
  Definition char_field (bufs : nat -> list N) : field := fun q i => [nth i (bufs q) 0%N].
  Definition write_buffer (b : build) (bufs : nat -> list N) : res (option record) :=
    qio_write (lay_of b) Global PU 0 0 1 (length (bufs 0))
      (factory_get t_char (length (bufs 0)) (char_field bufs)) (length (bufs 0)) 1.

  (** ** Reading *)

  (** float to double and back, on bit patterns. *)
  Variables widen narrow : N -> N.
  Definition conv (from to : wt) (v : N) : N :=
    match from, to with Float, Double => widen v | Double, Float => narrow v | _, _ => v end.
  Definition conv_elem (from to : wt) : elem -> elem := map (conv from to).

  (** zero_rep(from_disk). *)
  Definition zero_field (t : ty) : field := fun _ _ => repeat 0%N (t_nmemb t).

  (** s1 = from_disk on whole lattices (every local site of every node). *)
  Definition assign_all (from to : wt) (F : field) : field := fun q i => conv_elem from to (F q i).

  (** QDPFileReader::read of an OLattice, 1217-1297.  [G] is the destination before the call. *)
  Definition read_lattice (b : build) (t : ty) (r : record) (G : field) : res field :=
    let lay := lay_of b in
    let via (w : wt) :=
      let t' := with_word t w in
      bind (qio_read lay r (factory_put t' (l_sites lay)) (sizeof t') (wsize w) (zero_field t'))
        (fun from_disk => Val (assign_all w (t_word t) from_disk)) in
    match r_prec r with
    | PF => via (single (t_word t))
    | PD => via (double (t_word t))
    | _ => qio_read lay r (factory_put t (l_sites lay)) (sizeof t) (wsize (t_word t)) G
    end.

  (** of an array of OLattice, 1306-1366; the length is that of the destination. *)
  Definition read_lattices (b : build) (t : ty) (r : record) (Gs : list field) : res (list field) :=
    let lay := lay_of b in
    let via (w : wt) :=
      let t' := with_word t w in
      bind (qio_read lay r (factory_put_array t' (l_sites lay)) (length Gs * sizeof t') (wsize w)
              (map (fun _ => zero_field t') Gs))
        (fun from_disk => Val (map (assign_all w (t_word t)) from_disk)) in
    match r_prec r with
    | PF => via (single (t_word t))
    | PD => via (double (t_word t))
    | _ => qio_read lay r (factory_put_array t (l_sites lay)) (length Gs * sizeof t) (wsize (t_word t)) Gs
    end.

  (** of an array of [n] OScalars, 918-998, and of one OScalar ([n] = 1), 843-908.  The temporary is not
      set to zero: [junk] is what its memory holds. *)
  Definition read_scalars (b : build) (t : ty) (n : nat) (r : record) (junk G : field) : res field :=
    let lay := lay_of b in
    let via (w : wt) :=
      let t' := with_word t w in
      bind (qio_read lay r (factory_put t' n) (n * sizeof t') (wsize w) junk)
        (fun from_disk => Val (assign_all w (t_word t) from_disk)) in
    match r_prec r with
    | PF => via (single (t_word t))
    | PD => via (double (t_word t))
    | _ => qio_read lay r (factory_put t n) (n * sizeof t) (wsize (t_word t)) G
    end.

  (** of a BinaryBufferReader, lib/qdp_qdpio.cc:253-292: the string is resized to the number of data
      (filled with zero bytes) on every node. *)
  Definition read_buffer (b : build) (r : record) : res (nat -> list N) :=
    let n := r_count r in
    bind (qio_read (lay_of b) r (factory_put t_char n) n 1 (fun _ _ => [0%N])) (fun F =>
    Val (fun q => map (fun i => hd 0%N (F q i)) (seq 0 n))).
End QIO.

(** Model of the binary readers and writers, lib/qdp_io.cc:519-1645 and
    include/qdp_io.h.

    The model describes the primary node; the other nodes receive what it reads by broadcast
    and write nothing (QDPInternal::broadcast is a copy). *)
From Coq Require Import List Arith NArith Bool.
From Verif Require Import Base CrcModel EvalModel.
Import ListNotations.
Local Open Scope N_scope.

(** ** Streams

    The C++ stream and the checksum member of a reader or writer.  [s_joint]: get and put
    position are one (std::filebuf); a std::stringbuf has two.  [s_fail] is failbit;
    operations on a failed stream do nothing.  [s_crc] is [None] while the member checksum is
    uninitialised. *)
Record stream := mkStream {
  s_joint : bool; s_data : list N; s_get : nat; s_put : nat; s_fail : bool; s_crc : option N }.

Definition with_crc (c : option N) (st : stream) : stream :=
  mkStream (s_joint st) (s_data st) (s_get st) (s_put st) (s_fail st) c.
Definition set_fail (st : stream) : stream :=
  mkStream (s_joint st) (s_data st) (s_get st) (s_put st) true (s_crc st).
Definition at_get (p : nat) (st : stream) : stream :=
  mkStream (s_joint st) (s_data st) p (if s_joint st then p else s_put st) (s_fail st) (s_crc st).
Definition at_put (p : nat) (st : stream) : stream :=
  mkStream (s_joint st) (s_data st) (if s_joint st then p else s_get st) p (s_fail st) (s_crc st).

(** Bytes [bs] over the data at [pos]; a gap after the end of a file reads as zeros. *)
Definition overwrite (data : list N) (pos : nat) (bs : list N) : list N :=
  match bs with
  | [] => data
  | _ => firstn pos data ++ repeat 0 (pos - length data) ++ bs ++ skipn (pos + length bs) data
  end.

(** std::ostream::write *)
Definition put_bytes (bs : list N) (st : stream) : stream :=
  if s_fail st then st
  else let st' := mkStream (s_joint st) (overwrite (s_data st) (s_put st) bs) (s_get st) (s_put st) false (s_crc st) in
       at_put (s_put st + length bs) st'.
(** std::istream::read of [n] bytes; after a short read the rest of the destination is
    whatever it was, so the outcome is [Undef]. *)
Definition get_bytes (n : nat) (st : stream) : res (list N * stream) :=
  if s_fail st then Undef
  else bind (of_option (peek (s_data st) (s_get st) n)) (fun bs => Val (bs, at_get (s_get st + n) st)).

(** internalChecksum() = crc32(internalChecksum(), bs, length bs) *)
Definition add_crc (bs : list N) (st : stream) : stream :=
  with_crc (option_map (fun c => crc32 c (Some bs)) (s_crc st)) st.

(** getChecksum, qdp_io.cc:536-544, 1188-1196, 1465-1473. *)
Definition getChecksum (st : stream) : res N := of_option (s_crc st).
(** resetChecksum, qdp_io.cc:547-550, 1027-1030, 1476-1479. *)
Definition resetChecksum (st : stream) : stream := with_crc (Some 0) st.
(** seek, seekBegin, rewind of a reader (qdp_io.cc:564-606) and of a reader-writer
    (1493-1535): seekg; of a writer (1044-1086): seekp.  The checksum is reset. *)
Definition reader_seek (p : nat) (st : stream) : stream := with_crc (Some 0) (at_get p st).
Definition writer_seek (p : nat) (st : stream) : stream := with_crc (Some 0) (at_put p st).
Definition readwriter_seek (p : nat) (st : stream) : stream := with_crc (Some 0) (at_get p st).
(** seekEnd(off): at [off] bytes before the end, qdp_io.cc:591-597, 1520-1526. *)
Definition reader_seekEnd (off : nat) (st : stream) : stream := reader_seek (length (s_data st) - off) st.
Definition readwriter_seekEnd (off : nat) (st : stream) : stream := readwriter_seek (length (s_data st) - off) st.

(** Constructors, qdp_io.cc.  BinaryFileReader 966-979, BinaryFileWriter 1395-1407 (truncates),
    BinaryFileReaderWriter 1589-1606, default BinaryBuffer* 917, 1347, 1540, and
    BinaryBufferReader(s) 920-928, BinaryBufferWriter(s) 1350-1358,
    BinaryBufferReaderWriter(s) 1543-1551, which leave checksum uninitialised. *)
Definition file_reader (data : list N) : stream := mkStream false data 0 0 false (Some 0).
Definition file_writer : stream := mkStream false [] 0 0 false (Some 0).
Definition file_readwriter (data : list N) : stream := mkStream true data 0 0 false (Some 0).
Definition buffer_empty : stream := mkStream false [] 0 0 false (Some 0).
Definition buffer_from (s : list N) : stream := mkStream false s 0 0 false None.
(** clear() of the buffer classes, qdp_io.cc:954-960, 1384-1390, 1577-1583: f.clear() resets the error
    state. *)
Definition buffer_clear (st : stream) : stream :=
  mkStream (s_joint st) (s_data st) (s_get st) (s_put st) false (Some 0).
(** str(), qdp_io.cc:942-951, 1372-1381, 1565-1574. *)
Definition buffer_str (st : stream) : list N := s_data st.

(** ** Arrays of words, on a machine of byte order [e] *)

(** BinaryWriter::writeArrayPrimaryNode, qdp_io.cc:1159-1180: the caller's memory [buf] afterwards, and
    the stream. *)
Definition write_array (e : endian) (buf : list N) (size nmemb : nat) (st : stream) : res (list N * stream) :=
  if big_endian e then
    let out := firstn (size * nmemb) buf in
    Val (buf, put_bytes out (add_crc out st))
  else
    bind (byte_swap e buf size nmemb) (fun buf1 =>
    let out := firstn (size * nmemb) buf1 in
    let st1 := put_bytes out (add_crc out st) in
    bind (byte_swap e buf1 size nmemb) (fun buf2 => Val (buf2, st1))).

(** BinaryReader::readArrayPrimaryNode, qdp_io.cc:715-731: the memory image read. *)
Definition read_array (e : endian) (size nmemb : nat) (st : stream) : res (list N * stream) :=
  bind (get_bytes (size * nmemb) st) (fun '(bs, st1) =>
  let st2 := add_crc bs st1 in
  if big_endian e then Val (bs, st2)
  else bind (byte_swap e bs size nmemb) (fun bs' => Val (bs', st2))).

(** readArrayLittleEndian and readArrayPrimaryNodeLittleEndian, qdp_io.cc:734-771: no checksum. *)
Definition read_array_little (e : endian) (size nmemb : nat) (st : stream) : res (list N * stream) :=
  bind (get_bytes (size * nmemb) st) (fun '(bs, st1) =>
  if big_endian e then bind (byte_swap e bs size nmemb) (fun bs' => Val (bs', st1))
  else Val (bs, st1)).

(** writePrimitive and readPrimitive, qdp_io.cc:1153-1157 and 700-704, of a word of [size] bytes given by
    its bit pattern. *)
Definition write_prim (e : endian) (size : nat) (v : N) (st : stream) : res stream :=
  bind (write_array e (mem e size v) size 1 st) (fun p => Val (snd p)).
Definition read_prim (e : endian) (size : nat) (st : stream) : res (N * stream) :=
  bind (read_array e size 1 st) (fun '(bs, st1) => Val (word e bs, st1)).

(** An int giving a size.  Reading a negative one is not modelled further (Undef). *)
Definition write_size (e : endian) (n : nat) (st : stream) : res stream :=
  write_prim e 4 (N.of_nat n mod 2 ^ 32) st.
Definition read_size (e : endian) (st : stream) : res (nat * stream) :=
  bind (read_prim e 4 st) (fun '(v, st1) => if v <? 2 ^ 31 then Val (N.to_nat v, st1) else Undef).

(** ** Strings (lists of chars) *)

(** writeDesc, qdp_io.cc:1089-1094, and readDesc, 610-628. *)
Definition write_desc (e : endian) (s : list N) (st : stream) : res stream :=
  bind (write_size e (length s) st) (fun st1 =>
  bind (write_array e s 1 (length s) st1) (fun p => Val (snd p))).
Definition read_desc (e : endian) (st : stream) : res (list N * stream) :=
  bind (read_size e st) (fun '(n, st1) => read_array e 1 n st1).

(** write(string), qdp_io.cc:1096-1102. *)
Definition write_string (e : endian) (s : list N) (st : stream) : res stream :=
  bind (write_array e s 1 (length s) st) (fun p =>
  bind (write_array e [10] 1 1 (snd p)) (fun p => Val (snd p))).

(** std::istream::getline into room for [room] characters and a terminator: the characters,
    the number of characters extracted, and whether failbit is set. *)
Fixpoint getline_loop (room : nat) (inp : list N) : list N * nat * bool :=
  match inp with
  | [] => ([], 0%nat, false)
  | c :: r =>
      if c =? 10 then ([], 1%nat, false)
      else match room with
           | O => ([], 0%nat, true)
           | S room' => let '(s, n, f) := getline_loop room' r in (c :: s, S n, f)
           end
  end.
(** strlen / conversion of a C string *)
Fixpoint c_string (s : list N) : list N :=
  match s with [] => [] | c :: r => if c =? 0 then [] else c :: c_string r end.

(** read(string, maxBytes), qdp_io.cc:630-653. *)
Definition read_string (maxBytes : nat) (st : stream) : res (list N * stream) :=
  match maxBytes with
  | O => Undef
  | S room =>
      let '(line, st1) :=
        if s_fail st then ([], st)
        else let '(s, n, f) := getline_loop room (skipn (s_get st) (s_data st)) in
             let st1 := at_get (s_get st + n) st in
             (s, if f || (n =? 0)%nat then set_fail st1 else st1) in
      let str := c_string line in
      Val (str, add_crc [10] (add_crc str st1))
  end.

(** ** Containers: the overloads of read and write in qdp_io.h *)

(** The static type of an object: a primitive of [size] bytes; a string written with
    writeDesc; a string written with write and read with maxBytes;
    multi1d, std::vector, std::list or Array1dO; multi2d .. multi5d ([d] dimensions);
    multiNd; std::map; std::pair or std::complex. *)
Inductive ty :=
| TPrim (size : nat)
| TDesc
| TLine (maxBytes : nat)
| TSeq (t : ty)
| TMulti (d : nat) (t : ty)
| TNd (t : ty)
| TMap (k v : ty)
| TPair (a b : ty).

(** Its value.  [VMulti ns F]: extents n1, n2, ... and the array F of qdp_multi.h;
    [VMap]: the entries in the order of the keys. *)
Inductive value :=
| VPrim (v : N)
| VDesc (s : list N)
| VSeq (l : list value)
| VMulti (ns : list nat) (F : list value)
| VNd (ns : list nat) (F : list value)
| VMap (l : list (value * value))
| VPair (a b : value).

(** The nested loops "for i < size1, for j < size2, ...": all index tuples (i, j, ...), and
    the offset of element [...][j][i] in F (qdp_multi.h:709-718, 808-817, 903-912, 1000-1009):
    i + n1*(j + n2*(...)).  Written once for any number of dimensions. *)
Fixpoint tuples (ns : list nat) : list (list nat) :=
  match ns with
  | [] => [[]]
  | n :: r => flat_map (fun i => map (cons i) (tuples r)) (seq 0 n)
  end.
Fixpoint multi_offset (ns ix : list nat) : nat :=
  match ns, ix with
  | n :: r, i :: q => (i + n * multi_offset r q)%nat
  | _, _ => 0%nat
  end.
Definition product (ns : list nat) : nat := fold_right Nat.mul 1%nat ns.

(** Run a list of writes, and a number of reads. *)
Fixpoint write_all {A} (w : A -> stream -> res stream) (l : list A) (st : stream) : res stream :=
  match l with [] => Val st | a :: r => bind (w a st) (write_all w r) end.
Fixpoint read_all {A} (rd : stream -> res (A * stream)) (n : nat) (st : stream) : res (list A * stream) :=
  match n with
  | O => Val ([], st)
  | S k => bind (rd st) (fun '(a, st1) => bind (read_all rd k st1) (fun '(l, st2) => Val (a :: l, st2)))
  end.

Section Values.
  (** operator< of the key type of a std::map. *)
  Variable klt : value -> value -> bool.
  Variable e : endian.

  (** std::map::insert into entries sorted by key: an existing key keeps its value. *)
  Fixpoint map_insert (k v : value) (l : list (value * value)) : list (value * value) :=
    match l with
    | [] => [(k, v)]
    | (k', v') :: r => if klt k k' then (k, v) :: l
                       else if klt k' k then (k', v') :: map_insert k v r
                       else l
    end.

  (** write: primitives qdp_io.cc:1108-1151; writeDesc; qdp_io.h:1167-1175, 1286-1296, 1305-1314,
      1324-1333 (sequences); 1195-1264 (multi2d .. multi5d); 1267-1276 (multiNd); 1343-1359
      (map); 1368-1374 (pair).  Writing a default-constructed multiNd reads its uninitialised
      member sz (qdp_multi.h:1028). *)
  Fixpoint write_val (t : ty) (v : value) (st : stream) : res stream :=
    match t, v with
    | TPrim size, VPrim n => write_prim e size n st
    | TDesc, VDesc s => write_desc e s st
    | TLine _, VDesc s => write_string e s st
    | TSeq t, VSeq l => bind (write_size e (length l) st) (write_all (write_val t) l)
    | TMulti d t, VMulti ns F =>
        bind (write_all (write_size e) (rev ns) st)
             (write_all (write_val t) (map (fun ix => nth (multi_offset ns ix) F (VPrim 0)) (tuples ns)))
    | TNd t, VNd [] F => Undef
    | TNd t, VNd ns F =>
        bind (write_size e (length ns) st) (fun st1 =>
        bind (write_all (write_size e) ns st1) (write_all (write_val t) F))
    | TMap k t, VMap l =>
        bind (write_size e (length l) st)
             (write_all (fun p st => bind (write_val k (fst p) st) (write_val t (snd p))) l)
    | TPair a b, VPair x y => bind (write_val a x st) (write_val b y)
    | _, _ => Undef
    end.

  (** read: primitives qdp_io.cc:655-698; qdp_io.h:528-538, 769-779, 793-808, 823-833; 596-742; 744-757;
      847-867; 880-892. *)
  Fixpoint read_val (t : ty) (st : stream) : res (value * stream) :=
    match t with
    | TPrim size => bind (read_prim e size st) (fun '(n, st) => Val (VPrim n, st))
    | TDesc => bind (read_desc e st) (fun '(s, st) => Val (VDesc s, st))
    | TLine max => bind (read_string max st) (fun '(s, st) => Val (VDesc s, st))
    | TSeq t =>
        bind (read_size e st) (fun '(n, st) =>
        bind (read_all (read_val t) n st) (fun '(l, st) => Val (VSeq l, st)))
    | TMulti d t =>
        bind (read_all (read_size e) d st) (fun '(sizes, st) =>
        let ns := rev sizes in
        let ixs := tuples ns in
        bind (read_all (read_val t) (length ixs) st) (fun '(l, st) =>
        let F := fold_left (fun F p => set_nth (multi_offset ns (fst p)) (snd p) F) (combine ixs l)
                           (repeat (VPrim 0) (product ns)) in
        Val (VMulti ns F, st)))
    | TNd t =>
        bind (read_size e st) (fun '(d, st) =>
        if (d =? 0)%nat then Undef   (* resize uses nz[0], qdp_multi.h:1046 *)
        else
        bind (read_all (read_size e) d st) (fun '(ns, st) =>
        bind (read_all (read_val t) (product ns) st) (fun '(F, st) => Val (VNd ns F, st))))
    | TMap k t =>
        bind (read_size e st) (fun '(n, st) =>
        bind (read_all (fun st => bind (read_val k st) (fun '(x, st) =>
                                  bind (read_val t st) (fun '(y, st) => Val ((x, y), st)))) n st) (fun '(l, st) =>
        Val (VMap (fold_left (fun m p => map_insert (fst p) (snd p) m) l []), st)))
    | TPair a b =>
        bind (read_val a st) (fun '(x, st) => bind (read_val b st) (fun '(y, st) => Val (VPair x y, st)))
    end.

  (** A program writing objects one after the other, and one reading them. *)
  Fixpoint write_objects (l : list (ty * value)) (st : stream) : res stream :=
    match l with [] => Val st | (t, v) :: r => bind (write_val t v st) (write_objects r) end.
  Fixpoint read_objects (l : list ty) (st : stream) : res (list value * stream) :=
    match l with
    | [] => Val ([], st)
    | t :: r => bind (read_val t st) (fun '(v, st1) => bind (read_objects r st1) (fun '(vs, st2) => Val (v :: vs, st2)))
    end.
End Values.

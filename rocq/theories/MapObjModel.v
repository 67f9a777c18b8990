(** Model of the map objects: include/qdp_map_obj_memory.h, qdp_map_obj_disk.h,
    qdp_map_obj_disk_multiple.h and lib/qdp_map_obj_disk.cc.

    Keys and values are objects of IoModel.v; the static types K and V are [tk] and [tv].
    std::unordered_map is an association list whose iteration order is a parameter. *)
From Coq Require Import List Arith NArith ZArith Bool.
From Verif Require Import Base CrcModel IoModel.
Import ListNotations.
Local Open Scope N_scope.

(** operator== of std::string. *)
Fixpoint string_eqb (a b : list N) : bool :=
  match a, b with
  | [], [] => true
  | x :: a', y :: b' => (x =? y) && string_eqb a' b'
  | _, _ => false
  end.

(** ** std::unordered_map<std::string, A> *)
Section Umap.
  Context {A : Type}.
  Definition umap := list (list N * A).
  Definition umap_find (k : list N) (m : umap) : option A :=
    option_map snd (find (fun p => string_eqb (fst p) k) m).
  (** iter->second = a *)
  Definition umap_set (k : list N) (a : A) (m : umap) : umap :=
    map (fun p => if string_eqb (fst p) k then (fst p, a) else p) m.
  (** insert: an existing key keeps its value *)
  Definition umap_insert (k : list N) (a : A) (m : umap) : umap :=
    match umap_find k m with Some _ => m | None => (k, a) :: m end.
  Definition umap_erase (k : list N) (m : umap) : umap :=
    filter (fun p => negb (string_eqb (fst p) k)) m.
End Umap.
Arguments umap A : clear implicits.

(** The idiom "BinaryBufferWriter bin; write(bin, key); bin.str()". *)
Definition key_string (e : endian) (tk : ty) (k : value) : res (list N) :=
  bind (write_val e tk k buffer_empty) (fun st => Val (buffer_str st)).
(** "BinaryBufferReader bin(s); read(bin, key)". *)
Definition key_of_string (klt : value -> value -> bool) (e : endian) (tk : ty) (s : list N) : res value :=
  bind (read_val klt e tk (buffer_from s)) (fun p => Val (fst p)).

(** ** MapObjectMemory, qdp_map_obj_memory.h:64-251 *)

Record memmap := mkMem { m_map : umap (value * value); m_user : list N }.

Section Memory.
  Variable klt : value -> value -> bool.
  Variable e : endian.
  Variable tk : ty.
  (** the order in which the unordered_map is traversed *)
  Variable iter : umap (value * value) -> list (list N * (value * value)).

  (** insert(value_type), 115-132; insert(key, val), 99-102. *)
  Definition mem_insert (k v : value) (m : memmap) : res memmap :=
    bind (key_string e tk k) (fun s =>
    Val (mkMem (match umap_find s (m_map m) with
                | Some _ => umap_set s (k, v) (m_map m)
                | None => umap_insert s (k, v) (m_map m)
                end) (m_user m))).
  (** insert(first, last), 105-112. *)
  Fixpoint mem_insert_range (l : list (value * value)) (m : memmap) : res memmap :=
    match l with [] => Val m | (k, v) :: r => bind (mem_insert k v m) (mem_insert_range r) end.
  (** get, 135-149: the return code and the value. *)
  Definition mem_get (k : value) (m : memmap) : res (nat * option value) :=
    bind (key_string e tk k) (fun s =>
    Val (match umap_find s (m_map m) with
         | Some p => (0%nat, Some (snd p))
         | None => (1%nat, None)
         end)).
  (** erase, 152-162. *)
  Definition mem_erase (k : value) (m : memmap) : res memmap :=
    bind (key_string e tk k) (fun s =>
    Val (match umap_find s (m_map m) with
         | Some _ => mkMem (umap_erase s (m_map m)) (m_user m)
         | None => m
         end)).
  (** clear, 165. *)
  Definition mem_clear (m : memmap) : memmap := mkMem [] (m_user m).
  (** exist, 171-176. *)
  Definition mem_exist (k : value) (m : memmap) : res bool :=
    bind (key_string e tk k) (fun s =>
    Val (match umap_find s (m_map m) with None => false | Some _ => true end)).
  (** size, 180: an unsigned int. *)
  Definition mem_size (m : memmap) : N := N.of_nat (length (m_map m)) mod 2 ^ 32.
  (** keys, 183-190, and keysAndValues, 193-202. *)
  Definition mem_keys (m : memmap) : list value := map (fun p => fst (snd p)) (iter (m_map m)).
  Definition mem_keysAndValues (m : memmap) : list (value * value) := map snd (iter (m_map m)).
  (** operator[] const, 206-219. *)
  Definition mem_index (k : value) (m : memmap) : res value :=
    bind (key_string e tk k) (fun s =>
    match umap_find s (m_map m) with Some p => Val (snd p) | None => Abort end).
  (** m[k] = v through operator[], 222-235: only the second component changes. *)
  Definition mem_assign (k v : value) (m : memmap) : res memmap :=
    bind (key_string e tk k) (fun s =>
    match umap_find s (m_map m) with
    | Some p => Val (mkMem (umap_set s (fst p, v) (m_map m)) (m_user m))
    | None => Abort
    end).
End Memory.

(** ** MapObjectDisk *)

(** *** Stream positions, qdp_map_obj_disk.h:130-131, 208-231

    std::fpos holds a std::streamoff, a signed 64-bit integer.  pos_type(max uint64) is
    therefore -1 and [max_uint64] is 0: the conversion divides by zero.  C++ gives that no
    meaning; x86 processors trap, others (ARM) deliver quotient 0 and hence remainder a. *)
Inductive zero_division := DivTraps | DivGivesZero.
Definition wrap64 (z : Z) : Z := ((z + 2 ^ 63) mod 2 ^ 64 - 2 ^ 63)%Z.
Definition max_uint64 : Z := wrap64 (wrap64 (2 ^ 64 - 1) + wrap64 1).
Definition pos_div (zd : zero_division) (a b : Z) : res (Z * Z) :=
  if (b =? 0)%Z then match zd with DivTraps => Undef | DivGivesZero => Val (0, a)%Z end
  else Val (Z.quot a b, Z.rem a b).

Definition convertToPrivate (zd : zero_division) (e : endian) (input : Z) : res (N * N) :=
  bind (pos_div zd input max_uint64) (fun '(q, r) =>
  let less := Z.to_N (r mod 2 ^ 64) in
  let more := Z.to_N (q mod 2 ^ 64) in
  Val (if big_endian e then (more, less) else (less, more))).
Definition convertFromPrivate (e : endian) (input : N * N) : Z :=
  let off (w : N) := wrap64 (Z.of_N w) in
  if big_endian e then wrap64 (off (snd input) + wrap64 (off (fst input) * max_uint64))
  else wrap64 (off (fst input) + wrap64 (off (snd input) * max_uint64)).

(** The 16 bytes of a priv_pos_type_t in memory, and their transfer as one 16-byte word. *)
Definition priv_mem (e : endian) (p : N * N) : list N := mem e 8 (fst p) ++ mem e 8 (snd p).
Definition priv_of (e : endian) (bs : list N) : N * N := (word e (firstn 8 bs), word e (skipn 8 bs)).
Definition write_priv (e : endian) (p : N * N) (st : stream) : res stream :=
  bind (write_array e (priv_mem e p) 16 1 st) (fun q => Val (snd q)).
Definition read_priv (e : endian) (st : stream) : res (N * N * stream) :=
  bind (read_array e 16 1 st) (fun '(bs, st1) => Val (priv_of e bs, st1)).

(** tellg, -1 on a failed stream (qdp_io.cc:1482-1490), and seekg, which fails for a negative position. *)
Definition currentPosition (st : stream) : Z := if s_fail st then (-1)%Z else Z.of_nat (s_get st).
Definition seek_to (p : Z) (st : stream) : stream :=
  if (p <? 0)%Z then with_crc (Some 0) (set_fail st) else readwriter_seek (Z.to_nat p) st.

(** *** The file *)

(** getFileMagic, lib/qdp_map_obj_disk.cc:17-21: the characters of
    XXXXQDPLazyDiskMapObjFileXXXX. *)
Definition file_magic : list N :=
  [88; 88; 88; 88; 81; 68; 80; 76; 97; 122; 121; 68; 105; 115; 107; 77; 97; 112; 79; 98; 106; 70; 105; 108; 101; 88; 88; 88; 88].

(** The part of openWrite that writes, qdp_map_obj_disk.h:277-322: magic, version, user data and a link
    that points to itself. *)
Definition write_header (zd : zero_division) (e : endian) (user : list N) (st : stream) : res stream :=
  bind (write_desc e file_magic st) (fun st =>
  bind (write_prim e 4 1 st) (fun st =>
  bind (write_desc e user st) (fun st =>
  bind (convertToPrivate zd e (currentPosition st)) (fun dummypos =>
  write_priv e dummypos st)))).

(** readCheckHeader, 774-835: the user data and the link. *)
Definition read_header (e : endian) (st : stream) : res (list N * (N * N) * stream) :=
  let st := readwriter_seek 0 st in
  bind (read_desc e st) (fun '(magic, st) =>
  if negb (string_eqb magic file_magic) then Abort else
  bind (read_prim e 4 st) (fun '(version, st) =>
  bind (read_desc e st) (fun '(user, st) =>
  bind (read_priv e st) (fun '(md, st) => Val (user, md, st))))).

(** writeMapBinary, 839-868, for the entries in traversal order. *)
Definition write_map (e : endian) (entries : list (list N * (N * N))) (st : stream) : res stream :=
  let st := resetChecksum st in
  bind (write_prim e 4 (N.of_nat (length entries) mod 2 ^ 32) st) (fun st =>
  bind (write_all (fun p st => bind (write_desc e (fst p) st) (write_priv e (snd p))) entries st) (fun st =>
  bind (getChecksum st) (fun c => write_prim e 4 c st))).

(** readMapBinary, 873-920. *)
Definition read_map (e : endian) (md : N * N) (m : umap (N * N)) (st : stream) : res (umap (N * N) * stream) :=
  let st := resetChecksum (seek_to (convertFromPrivate e md) st) in
  bind (read_prim e 4 st) (fun '(num_records, st) =>
  bind (read_all (fun st => bind (read_desc e st) (fun '(key, st) =>
                            bind (read_priv e st) (fun '(pos, st) => Val ((key, pos), st)))) (N.to_nat num_records) st)
       (fun '(l, st) =>
  bind (getChecksum st) (fun calc =>
  bind (read_prim e 4 st) (fun '(chk, st) =>
  if negb (chk =? calc) then Abort
  else Val (fold_left (fun m p => umap_insert (fst p) (snd p) m) l m, st))))).

(** *** The object

    [d_stream] is open exactly while the state is not INIT.  [d_out]: opened with ios::out.
    src_map is not cleared by close or open. *)
Inductive dstate := INIT | UNCHANGED | MODIFIED.
Record disk := mkDisk {
  d_state : dstate; d_user : list N; d_map : umap (N * N); d_out : bool; d_stream : stream }.

(** MapObjectDisk(), 40. *)
Definition new_disk : disk := mkDisk INIT [] [] false (file_readwriter []).

(** The open mode, ios::in being always set. *)
Record openmode := mkMode { m_out : bool; m_trunc : bool }.
(** std::fstream::open: the contents found, None if it fails. *)
Definition fstream_open (file : option (list N)) (mode : openmode) : option (list N) :=
  match m_out mode, m_trunc mode with
  | true, true => Some []
  | false, true => None
  | _, false => file
  end.
(** checkForNewFile, lib/qdp_map_obj_disk.cc:49-68. *)
Definition checkForNewFile (file : option (list N)) (mode : openmode) : bool :=
  m_trunc mode || match file with None => true | Some _ => false end.
(** fileExists, qdp_map_obj_disk.h:55-57. *)
Definition fileExists (file : option (list N)) : bool := negb (checkForNewFile file (mkMode false false)).

(** The machine a session runs on. *)
Record host := mkHost {
  h_e : endian; h_zd : zero_division; h_iter : umap (N * N) -> list (list N * (N * N)) }.

Section Disk.
  Variable klt : value -> value -> bool.
  Variables tk tv : ty.
  Variable h : host.
  Let e := h_e h.

  (** open, openWrite and openRead, 234-397, on a file with the given contents (None: no such file).  An object already
      open throws.  BinaryFileReaderWriter::open aborts if the file cannot be opened
      (qdp_io.cc:1597-1606). *)
  Definition disk_open (file : option (list N)) (mode : openmode) (o : disk) : res disk :=
    match d_state o with
    | INIT =>
        match fstream_open file mode with
        | None => Abort
        | Some data =>
            let st := file_readwriter data in
            if checkForNewFile file mode then
              bind (write_header (h_zd h) e (d_user o) st) (fun st =>
              Val (mkDisk MODIFIED (d_user o) (d_map o) (m_out mode) st))
            else
              bind (read_header e st) (fun '(user, md, st) =>
              bind (read_map e md (d_map o) st) (fun '(m, st) =>
              Val (mkDisk UNCHANGED user m (m_out mode) st)))
        end
    | _ => Abort
    end.

  (** write(streamer, val); write(streamer, streamer.getChecksum()).  A write to a file not
      opened for output fails. *)
  Definition write_record (out : bool) (v : value) (st : stream) : res stream :=
    let st := resetChecksum st in
    let st := if out then st else set_fail st in
    bind (write_val e tv v st) (fun st =>
    bind (getChecksum st) (fun c => write_prim e 4 c st)).

  (** insert, 541-633: the return code and the object. *)
  Definition disk_insert (k v : value) (o : disk) : res (nat * disk) :=
    match d_state o with
    | INIT => Val (1%nat, o)
    | _ =>
        bind (key_string e tk k) (fun s =>
        match umap_find s (d_map o) with
        | Some p =>
            bind (write_record (d_out o) v (seek_to (convertFromPrivate e p) (d_stream o))) (fun st =>
            Val (0%nat, mkDisk MODIFIED (d_user o) (d_map o) (d_out o) st))
        | None =>
            bind (convertToPrivate (h_zd h) e (currentPosition (d_stream o))) (fun p =>
            bind (write_record (d_out o) v (d_stream o)) (fun st =>
            Val (0%nat, mkDisk MODIFIED (d_user o) (umap_insert s p (d_map o)) (d_out o) st)))
        end)
    end.

  Definition with_stream (st : stream) (o : disk) : disk :=
    mkDisk (d_state o) (d_user o) (d_map o) (d_out o) st.

  (** get, 640-723: the return code, the value, and the object, whose stream moves. *)
  Definition disk_get (k : value) (o : disk) : res (nat * option value * disk) :=
    match d_state o with
    | INIT => Val (1%nat, None, o)
    | _ =>
        bind (key_string e tk k) (fun s =>
        match umap_find s (d_map o) with
        | None => Val (1%nat, None, o)
        | Some p =>
            let st := resetChecksum (seek_to (convertFromPrivate e p) (d_stream o)) in
            bind (read_val klt e tv st) (fun '(v, st) =>
            bind (getChecksum st) (fun calc =>
            bind (read_prim e 4 st) (fun '(chk, st) =>
            if negb (chk =? calc) then Abort else Val (0%nat, Some v, with_stream st o))))
        end)
    end.

  (** exist, 726-738; size, 96; keys, 457-475. *)
  Definition disk_exist (k : value) (o : disk) : res bool :=
    bind (key_string e tk k) (fun s =>
    Val (match umap_find s (d_map o) with None => false | Some _ => true end)).
  Definition disk_size (o : disk) : N := N.of_nat (length (d_map o)) mod 2 ^ 32.
  Definition disk_keys (o : disk) : res (list value) :=
    match d_state o with
    | INIT => Val []
    | _ => mapM (fun p => key_of_string klt e tk (fst p)) (h_iter h (d_map o))
    end.

  (** insertUserdata, 478-502, and getUserdata, 505-535: the return code. *)
  Definition disk_insertUserdata (user : list N) (o : disk) : nat * disk :=
    match d_state o with
    | INIT => (0%nat, mkDisk INIT user (d_map o) (d_out o) (d_stream o))
    | _ => (1%nat, o)
    end.
  Definition disk_getUserdata (o : disk) : nat * option (list N) :=
    match d_state o with INIT => (1%nat, None) | _ => (0%nat, Some (d_user o)) end.

  (** closeWrite, 929-980, in two parts: the key map at the end of the file, then the link to it
      (writeSkipHeader, 746-771, is the second seek). *)
  Definition closeWrite_map (o : disk) : res (N * N * stream) :=
    let st := readwriter_seekEnd 0 (d_stream o) in
    bind (convertToPrivate (h_zd h) e (currentPosition st)) (fun metadata_start =>
    bind (write_map e (h_iter h (d_map o)) (if d_out o then st else set_fail st)) (fun st => Val (metadata_start, st))).
  Definition closeWrite_link (user : list N) (metadata_start : N * N) (st : stream) : res stream :=
    let st := readwriter_seek (length file_magic + 4 + length user + 4 + 4) (readwriter_seek 0 st) in
    bind (write_priv e metadata_start st) (fun st => Val (readwriter_seekEnd 0 st)).
  Definition closeWrite (o : disk) : res stream :=
    bind (closeWrite_map o) (fun '(md, st) => closeWrite_link (d_user o) md st).

  (** flush, 437-454, and close, 401-426. *)
  Definition disk_flush (o : disk) : res disk :=
    match d_state o with
    | MODIFIED => bind (closeWrite o) (fun st => Val (mkDisk UNCHANGED (d_user o) (d_map o) (d_out o) st))
    | _ => Val o
    end.
  Definition disk_close (o : disk) : res disk :=
    match d_state o with
    | MODIFIED => bind (closeWrite o) (fun st => Val (mkDisk INIT (d_user o) (d_map o) (d_out o) st))
    | _ => Val (mkDisk INIT (d_user o) (d_map o) (d_out o) (d_stream o))
    end.

  (** The contents of the file the object has open. *)
  Definition disk_file (o : disk) : list N := s_data (d_stream o).
End Disk.

(** getMetaData, lib/qdp_map_obj_disk.cc:24-46. *)
Definition getMetaData (e : endian) (file : list N) : res (list N) :=
  let st := file_reader file in
  bind (read_desc e st) (fun '(magic, st) =>
  if negb (string_eqb magic file_magic) then Abort else
  bind (read_prim e 4 st) (fun '(version, st) =>
  bind (read_desc e st) (fun '(user, st) => Val user))).

(** ** MapObjectDiskMultiple, qdp_map_obj_disk_multiple.h:17-191

    [dbs_] is the list of objects; a pointer that was deleted is None. *)
Section Multiple.
  Variable klt : value -> value -> bool.
  Variables tk tv : ty.
  Variable h : host.
  (** the order in which the local unordered_map<std::string,int> of keys is traversed *)
  Variable iter1 : umap unit -> list (list N * unit).

  Definition deref {A} (o : option A) : res A := of_option o.

  (** open, 39-48: the old objects are dropped (leaked). *)
  Fixpoint multi_open (files : list (option (list N))) : res (list (option disk)) :=
    match files with
    | [] => Val []
    | f :: r => bind (disk_open h f (mkMode false false) new_disk) (fun d =>
                bind (multi_open r) (fun ds => Val (Some d :: ds)))
    end.
  (** fileExists, 52-63: the loop runs over the open databases, not the files. *)
  Fixpoint multi_fileExists (dbs : list (option disk)) (files : list (option (list N))) : res bool :=
    match dbs with
    | [] => Val true
    | d :: ds => bind (deref d) (fun _ =>
                 match files with
                 | [] => Undef
                 | f :: fs => if fileExists f then multi_fileExists ds fs else Val false
                 end)
    end.
  (** close, 67-74: the pointers stay in dbs_ after delete. *)
  Fixpoint multi_close (dbs : list (option disk)) : res (list (option disk)) :=
    match dbs with
    | [] => Val []
    | d :: ds => bind (deref d) (fun o =>
                 bind (disk_close h o) (fun _ =>
                 bind (multi_close ds) (fun r => Val (None :: r))))
    end.
  (** get, 83-94. *)
  Fixpoint multi_get_from (ret : Z) (k : value) (dbs : list (option disk)) : res (Z * option value * list (option disk)) :=
    match dbs with
    | [] => Val (ret, None, [])
    | d :: ds =>
        bind (deref d) (fun o =>
        bind (disk_get klt tk tv h k o) (fun '(r, v, o') =>
        if (r =? 0)%nat then Val (0%Z, v, Some o' :: ds)
        else bind (multi_get_from (Z.of_nat r) k ds) (fun '(r', v', ds') => Val (r', v', Some o' :: ds'))))
    end.
  Definition multi_get := multi_get_from (-1)%Z.
  (** exist, 147-159. *)
  Fixpoint multi_exist (k : value) (dbs : list (option disk)) : res bool :=
    match dbs with
    | [] => Val false
    | d :: ds => bind (deref d) (fun o =>
                 bind (disk_exist tk h k o) (fun b => if b then Val true else multi_exist k ds))
    end.
  (** keys, 102-129. *)
  Definition multi_keys (dbs : list (option disk)) : res (list value) :=
    bind (mapM (fun d => bind (deref d) (disk_keys klt tk h)) dbs) (fun kks =>
    bind (mapM (key_string (h_e h) tk) (concat kks)) (fun ss =>
    let unique := fold_left (fun m s => umap_insert s tt m) ss [] in
    mapM (fun p => key_of_string klt (h_e h) tk (fst p)) (iter1 unique))).
  (** getUserdata, 167-178. *)
  Definition multi_getUserdata (dbs : list (option disk)) : res (Z * option (list N)) :=
    match dbs with
    | [] => Val ((-1)%Z, None)
    | d :: _ => bind (deref d) (fun o => let '(r, u) := disk_getUserdata o in Val (Z.of_nat r, u))
    end.
End Multiple.

(** ** MapObjectNull, qdp_map_obj_null.h:17-50 *)
Definition null_insert (k v : value) : nat := 1.
Definition null_get (k : value) : nat * option value := (1%nat, None).
Definition null_exist (k : value) : bool := false.
Definition null_size : N := 0.
Definition null_keys : list value := [].

(** Model of the life of HDF5Reader and HDF5Writer objects: construction, opening, closing, copying and
    destruction, with the working group (lib/qdp_hdf5.cc:23-69, 77-95, 198-276, 1453-1593,
    include/qdp_hdf5.h:41-79, 478-490, 954-1030, 1224-1256).

    HDF5 is modelled as a contract: a table of open identifiers (of files and of groups) and, for each file that
    is open, its contents and how it was first opened.  Identifiers are never given twice.
    Simplified: the tree in a file is a value of a type [T] of which only the groups are known (C85 models the
    tree); all nodes make the same calls, see one file system and node 0 decides whether a file exists; every
    file can be read and written; H5Fis_hdf5 recognises files that are open. *)
From Coq Require Import String List Bool Arith NArith.
From Verif Require Import H5DirModel.
Import ListNotations.

Section Files.
  Variable T : Type.
  (** The tree of a file that was just created, and the paths of the groups of a tree. *)
  Variable empty : T.
  Variable grp : T -> path -> bool.

  (** A name in the file system.  [Torn]: an HDF5 file that was changed since it was opened and has not been
      closed; what is on the disk is not known (the code never calls H5Fflush). *)
  Inductive entry := Absent | Plain (b : list N) | Tree (t : T) | Torn.
  (** An open identifier: of a file, or of a group in it. *)
  Inductive hkind := KFile | KGroup (p : path).
  Record handle := mkHandle { h_id : nat; h_name : string; h_kind : hkind }.
  (** HDF5 and the file system.  [live n]: file [n] is open, [true] for writing, with these contents. *)
  Record lib := mkLib { disk : string -> entry; live : string -> option (bool * T); hs : list handle; next : nat }.

  Definition upd {A} (f : string -> A) (n : string) (a : A) : string -> A := fun m => if (m =? n)%string then a else f m.
  Definition find_h (l : lib) (id : nat) : option handle := List.find (fun h => h_id h =? id) (hs l).
  Definition add_h (l : lib) (n : string) (k : hkind) : nat * lib :=
    (next l, mkLib (disk l) (live l) (mkHandle (next l) n k :: hs l) (S (next l))).
  (** H5Fclose, H5Gclose, H5Oclose: the identifier goes; nothing happens if it is not open.  With the last
      identifier of a file HDF5 writes the contents and forgets the file. *)
  Definition close_h (l : lib) (id : nat) : lib :=
    match find_h l id with
    | None => l
    | Some h =>
        let r := filter (fun g => negb (h_id g =? id)) (hs l) in
        if existsb (fun g => (h_name g =? h_name h)%string) r then mkLib (disk l) (live l) r (next l)
        else match live l (h_name h) with
             | Some (true, t) => mkLib (upd (disk l) (h_name h) (Tree t)) (upd (live l) (h_name h) None) r (next l)
             | _ => mkLib (disk l) (upd (live l) (h_name h) None) r (next l)
             end
    end.
  (** H5Fopen: a file that is open for reading only cannot be opened for writing. *)
  Definition h5_fopen (l : lib) (n : string) (rw : bool) : option (nat * lib) :=
    match live l n with
    | Some (w, t) => if rw && negb w then None else Some (add_h l n KFile)
    | None => match disk l n with
              | Tree t => Some (add_h (mkLib (disk l) (upd (live l) n (Some (rw, t))) (hs l) (next l)) n KFile)
              | _ => None
              end
    end.
  (** H5Fcreate with H5F_ACC_TRUNC ([trunc]) or H5F_ACC_EXCL: not while the file is open. *)
  Definition h5_fcreate (l : lib) (n : string) (trunc : bool) : option (nat * lib) :=
    match live l n with
    | Some _ => None
    | None => match trunc, disk l n with
              | false, Plain _ | false, Tree _ | false, Torn => None
              | _, _ => Some (add_h (mkLib (upd (disk l) n Torn) (upd (live l) n (Some (true, empty))) (hs l) (next l)) n KFile)
              end
    end.
  (** The name H5Iget_name finds for an identifier: the path in the file. *)
  Definition h5_name (l : lib) (id : nat) : option path :=
    match find_h l id with
    | None => None
    | Some h => Some (match h_kind h with KFile => [] | KGroup p => p end)
    end.
  (** H5Gopen of a path in the file that an identifier belongs to. *)
  Definition h5_gopen (l : lib) (id : nat) (p : path) : option (nat * lib) :=
    match find_h l id with
    | None => None
    | Some h => match live l (h_name h) with
                | Some (_, t) => if grp t p then Some (add_h l (h_name h) (KGroup p)) else None
                | None => None
                end
    end.

  (** file_id and current_group of an object ([None]: -1), and whether it is a writer. *)
  Record obj5 := mkObj { o_writer : bool; o_file : option nat; o_cur : option nat }.
  (** Objects by number; [None]: there is no such object. *)
  Record st5 := mkSt { s_lib : lib; s_objs : nat -> option obj5 }.
  Definition uobj (f : nat -> option obj5) (i : nat) (o : option obj5) : nat -> option obj5 :=
    fun j => if j =? i then o else f j.
  (** Outcomes: normal; HDF5_error_exit, with the file system it leaves; no meaning. *)
  Inductive out5 := Fine (x : st5) | Exit (d : string -> entry) | Wrong.

  (** The constructors without a file name: HDF5::HDF5, lib/qdp_hdf5.cc:23-47, 1453-1455, 1508-1510. *)
  Definition fresh (w : bool) : obj5 := mkObj w None None.
  (** close: lib/qdp_hdf5.cc:253-276.  H5Fget_obj_ids without H5F_OBJ_LOCAL lists the groups opened through any
      identifier of the file.  current_group is not touched. *)
  Definition is_group_of (n : string) (h : handle) : bool :=
    match h_kind h with KGroup _ => (h_name h =? n)%string | KFile => false end.
  Definition close_lib (l : lib) (f : option nat) : lib :=
    match f with
    | None => l
    | Some id =>
        let ids := match find_h l id with
                   | Some h => map h_id (filter (is_group_of (h_name h)) (hs l))
                   | None => []
                   end in
        close_h (fold_left close_h ids l) id
    end.
  Definition closed (o : obj5) : obj5 := mkObj (o_writer o) None (o_cur o).
  (** HDF5_error_exit, include/qdp_hdf5.h:76-79: the object closes its file and the program stops; H5dont_atexit
      (lib/qdp_hdf5.cc:35) keeps HDF5 from closing the others. *)
  Definition error_exit (l : lib) (f : option nat) : out5 := Exit (disk (close_lib l f)).

  (** Does the file exist, is it an HDF5 file: lib/qdp_hdf5.cc:50-69, 1545-1556. *)
  Definition exists_file (l : lib) (n : string) : bool := match disk l n with Absent => false | _ => true end.
  Definition is_hdf5 (l : lib) (n : string) : bool := match disk l n with Tree _ | Torn => true | _ => false end.
  Definition check_exists (l : lib) (n : string) : bool := exists_file l n && is_hdf5 l n.

  Definition opened (x : st5) (i : nat) (o : obj5) (r : option (nat * lib)) (l : lib) : out5 :=
    match r with
    | None => error_exit l None
    | Some (id, l') => Fine (mkSt l' (uobj (s_objs x) i (Some (mkObj (o_writer o) (Some id) (Some id)))))
    end.
  (** HDF5Reader::open: lib/qdp_hdf5.cc:1466-1500. *)
  Definition open_reader (x : st5) (i : nat) (o : obj5) (n : string) : out5 :=
    let l := close_lib (s_lib x) (o_file o) in
    if negb (check_exists l n) then error_exit l None
    else opened x i o (h5_fopen l n false) l.
  (** HDF5Writer::open: lib/qdp_hdf5.cc:1522-1594; the default mode is ate, include/qdp_hdf5.h:1244, 1250-1252. *)
  Definition open_writer (x : st5) (i : nat) (o : obj5) (n : string) (trunc : bool) : out5 :=
    let l := close_lib (s_lib x) (o_file o) in
    if exists_file l n then
      if is_hdf5 l n then
        if trunc then opened x i o (h5_fcreate l n true) l
        else opened x i o (h5_fopen l n true) l
      else if trunc then
        let l1 := mkLib (upd (disk l) n Absent) (live l) (hs l) (next l) in
        opened x i o (h5_fcreate l1 n false) l1
      else error_exit l None
    else opened x i o (h5_fcreate l n false) l.

  (** pwd: lib/qdp_hdf5.cc:77-79, 88-95.  For an identifier that is not open H5Iget_name gives -1 and a string
      is made from an array without elements. *)
  Definition pwd5 (l : lib) (o : obj5) : option path :=
    match o_cur o with None => None | Some c => h5_name l c end.
  Definition at_root (p : path) : bool := match p with [] => true | _ => false end.
  (** pop: lib/qdp_hdf5.cc:198-213. *)
  Definition pop5 (l : lib) (o : obj5) : option (lib * obj5) :=
    match pwd5 l o, o_cur o, o_file o with
    | Some p, Some c, Some f =>
        if at_root p then Some (l, o)
        else match h5_gopen (close_h l c) f (removelast p) with
             | Some (g, l1) => Some (l1, mkObj (o_writer o) (Some f) (Some g))
             | None => None
             end
    | Some p, _, _ => if at_root p then Some (l, o) else None
    | None, _, _ => None
    end.
  (** The loop that pops until the working group is the root: lib/qdp_hdf5.cc:237-239; one turn for each
      component. *)
  Fixpoint pops (k : nat) (l : lib) (o : obj5) : option (lib * obj5) :=
    match k with
    | 0 => Some (l, o)
    | S k' => match pop5 l o with Some (l1, o1) => pops k' l1 o1 | None => None end
    end.
  (** cd to another group, named by its path from the root: lib/qdp_hdf5.cc:215-250.  The group that is left
      is closed unless its name occurs in the new one. *)
  Definition cd5 (l : lib) (o : obj5) (p : path) : option (lib * obj5) :=
    match pwd5 l o, o_cur o with
    | Some q, Some c =>
        if peq p q then Some (l, o)
        else match h5_gopen l c p with
             | None => Some (l, o)
             | Some (g, l1) =>
                 let leave := (match index 0 (render q) (render p) with None => true | _ => false end) || at_root p in
                 match (if leave then pops (length q) l1 o else Some (l1, o)) with
                 | Some (l2, o2) => Some (l2, mkObj (o_writer o2) (o_file o2) (Some g))
                 | None => None
                 end
             end
    | _, _ => None
    end.

  (** What a program does with objects.  [Edit]: any of the functions that write into the file (C84, C85),
      as the change they make to its contents. *)
  Inductive op5 :=
  | New (w : bool) (i : nat)
  | OpenR (i : nat) (n : string)
  | OpenW (i : nat) (n : string) (trunc : bool)
  | Close (i : nat)
  | Destroy (i : nat)
  | Copy (i j : nat)
  | Cd (i : nat) (p : path)
  | Pop (i : nat)
  | Edit (i : nat) (f : T -> T).

  Definition moved (x : st5) (i : nat) (r : option (lib * obj5)) : out5 :=
    match r with Some (l, o) => Fine (mkSt l (uobj (s_objs x) i (Some o))) | None => Wrong end.
  (** The function that each stands for; a constructor with a file name is [New] followed by an opening,
      lib/qdp_hdf5.cc:1457-1459, 1512-1514; destructors 1462-1464, 1517-1519; copies are the implicit ones. *)
  Definition step5 (x : st5) (c : op5) : out5 :=
    match c with
    | New w i => match s_objs x i with
                 | None => Fine (mkSt (s_lib x) (uobj (s_objs x) i (Some (fresh w))))
                 | Some _ => Wrong
                 end
    | OpenR i n => match s_objs x i with
                   | Some o => if o_writer o then Wrong else open_reader x i o n
                   | None => Wrong
                   end
    | OpenW i n trunc => match s_objs x i with
                         | Some o => if o_writer o then open_writer x i o n trunc else Wrong
                         | None => Wrong
                         end
    | Close i => match s_objs x i with
                 | Some o => Fine (mkSt (close_lib (s_lib x) (o_file o)) (uobj (s_objs x) i (Some (closed o))))
                 | None => Wrong
                 end
    | Destroy i => match s_objs x i with
                   | Some o => Fine (mkSt (close_lib (s_lib x) (o_file o)) (uobj (s_objs x) i None))
                   | None => Wrong
                   end
    | Copy i j => match s_objs x i with
                  | Some o => Fine (mkSt (s_lib x) (uobj (s_objs x) j (Some o)))
                  | None => Wrong
                  end
    | Cd i p => match s_objs x i with Some o => moved x i (cd5 (s_lib x) o p) | None => Wrong end
    | Pop i => match s_objs x i with Some o => moved x i (pop5 (s_lib x) o) | None => Wrong end
    | Edit i f =>
        match s_objs x i with
        | Some o =>
            if negb (o_writer o) then Wrong else
            match o_cur o with
            | None => Wrong
            | Some c => match find_h (s_lib x) c with
                        | None => Wrong
                        | Some h => match live (s_lib x) (h_name h) with
                                    | Some (true, t) =>
                                        Fine (mkSt (mkLib (upd (disk (s_lib x)) (h_name h) Torn)
                                                          (upd (live (s_lib x)) (h_name h) (Some (true, f t)))
                                                          (hs (s_lib x)) (next (s_lib x))) (s_objs x))
                                    | _ => Wrong
                                    end
                        end
            end
        | None => Wrong
        end
    end.
  Fixpoint run5 (x : st5) (cs : list op5) : out5 :=
    match cs with
    | [] => Fine x
    | c :: cs' => match step5 x c with Fine y => run5 y cs' | r => r end
    end.
  (** No object, nothing open. *)
  Definition start5 (d : string -> entry) : st5 := mkSt (mkLib d (fun _ => None) [] 0) (fun _ => None).

  (** What an object sees: the working group and the contents of the file. *)
  Definition sees (x : st5) (i : nat) : option (path * T) :=
    match s_objs x i with
    | Some o => match o_cur o with
                | Some c => match find_h (s_lib x) c with
                            | Some h => match live (s_lib x) (h_name h) with
                                        | Some (_, t) => Some (match h_kind h with KFile => [] | KGroup p => p end, t)
                                        | None => None
                                        end
                            | None => None
                            end
                | None => None
                end
    | None => None
    end.
End Files.
Arguments Absent {T}. Arguments Plain {T} b. Arguments Tree {T} t. Arguments Torn {T}.
Arguments Fine {T} x. Arguments Exit {T} d. Arguments Wrong {T}.
Arguments New {T} w i. Arguments OpenR {T} i n. Arguments OpenW {T} i n trunc. Arguments Close {T} i.
Arguments Destroy {T} i. Arguments Copy {T} i j. Arguments Cd {T} i p. Arguments Pop {T} i. Arguments Edit {T} i f.
Arguments upd {A} f n a.

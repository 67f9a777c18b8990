(** Specification of the map objects: finite maps from keys to values. *)
From Coq Require Import List Arith NArith ZArith Bool Permutation.
From Verif Require Import Base CrcModel IoModel CrcSpec IoSpec MapObjModel.
Import ListNotations.
Local Open Scope N_scope.

(** ** Equality of objects *)
Definition list_eqb {A} (f : A -> A -> bool) : list A -> list A -> bool :=
  fix go l m := match l, m with
                | [], [] => true
                | x :: l', y :: m' => f x y && go l' m'
                | _, _ => false
                end.
Fixpoint value_eqb (a b : value) : bool :=
  match a, b with
  | VPrim x, VPrim y => x =? y
  | VDesc s, VDesc t => list_eqb N.eqb s t
  | VSeq l, VSeq m => list_eqb value_eqb l m
  | VMulti n l, VMulti k m => list_eqb Nat.eqb n k && list_eqb value_eqb l m
  | VNd n l, VNd k m => list_eqb Nat.eqb n k && list_eqb value_eqb l m
  | VMap l, VMap m =>
      list_eqb (fun p q => value_eqb (fst p) (fst q) && value_eqb (snd p) (snd q)) l m
  | VPair x y, VPair u v => value_eqb x u && value_eqb y v
  | _, _ => false
  end.

(** ** Finite maps *)
Section Fmap.
  Context {A : Type}.
  Definition fmap := list (value * A).
  Fixpoint lookup (k : value) (m : fmap) : option A :=
    match m with [] => None | (k', a) :: r => if value_eqb k k' then Some a else lookup k r end.
  (** replace the value of a key, or add a key *)
  Fixpoint put (k : value) (a : A) (m : fmap) : fmap :=
    match m with
    | [] => [(k, a)]
    | (k', a') :: r => if value_eqb k k' then (k, a) :: r else (k', a') :: put k a r
    end.
  Definition remove (k : value) (m : fmap) : fmap := filter (fun p => negb (value_eqb k (fst p))) m.
End Fmap.
Arguments fmap A : clear implicits.

(** ** Programs using a MapObjectMemory *)
Inductive mem_op :=
| MInsert (k v : value) | MInsertRange (l : list (value * value)) | MGet (k : value) | MErase (k : value) | MClear
| MExist (k : value) | MSize | MKeys | MKeysAndValues | MIndex (k : value) | MAssign (k v : value)
| MSetUser (s : list N) | MGetUser | MFlush.
Inductive out :=
| ODone | OGet (ret : nat) (v : option value) | OBool (b : bool) | ONum (n : N) | OKeys (l : list value)
| OPairs (l : list (value * value)) | OUser (s : list N) | ORet (ret : nat).

(** Outputs agree; lists of keys may come in any order. *)
Definition same_out (a b : out) : Prop :=
  match a, b with
  | OKeys l, OKeys m => Permutation l m
  | OPairs l, OPairs m => Permutation l m
  | _, _ => a = b
  end.

Section MemPrograms.
  Variable e : endian.
  Variable tk : ty.
  Variable iter : umap (value * value) -> list (list N * (value * value)).

  Definition mem_step (op : mem_op) (m : memmap) : res (out * memmap) :=
    match op with
    | MInsert k v => bind (mem_insert e tk k v m) (fun m => Val (ORet 0, m))
    | MInsertRange l => bind (mem_insert_range e tk l m) (fun m => Val (ORet 0, m))
    | MGet k => bind (mem_get e tk k m) (fun r => Val (OGet (fst r) (snd r), m))
    | MErase k => bind (mem_erase e tk k m) (fun m => Val (ODone, m))
    | MClear => Val (ODone, mem_clear m)
    | MExist k => bind (mem_exist e tk k m) (fun b => Val (OBool b, m))
    | MSize => Val (ONum (mem_size m), m)
    | MKeys => Val (OKeys (mem_keys iter m), m)
    | MKeysAndValues => Val (OPairs (mem_keysAndValues iter m), m)
    | MIndex k => bind (mem_index e tk k m) (fun v => Val (OGet 0 (Some v), m))
    | MAssign k v => bind (mem_assign e tk k v m) (fun m => Val (ODone, m))
    | MSetUser s => Val (ORet 0, mkMem (m_map m) s)
    | MGetUser => Val (OUser (m_user m), m)
    | MFlush => Val (ODone, m)
    end.
  Fixpoint mem_run (ops : list mem_op) (m : memmap) : res (list out) :=
    match ops with
    | [] => Val []
    | op :: r => bind (mem_step op m) (fun '(o, m') => bind (mem_run r m') (fun os => Val (o :: os)))
    end.
End MemPrograms.

(** The same program on a finite map and a string. *)
Definition fm_step (op : mem_op) (s : fmap value * list N) : res (out * (fmap value * list N)) :=
  let '(m, u) := s in
  match op with
  | MInsert k v => Val (ORet 0, (put k v m, u))
  | MInsertRange l => Val (ORet 0, (fold_left (fun m p => put (fst p) (snd p) m) l m, u))
  | MGet k => Val (OGet (match lookup k m with Some _ => 0 | None => 1 end) (lookup k m), s)
  | MErase k => Val (ODone, (remove k m, u))
  | MClear => Val (ODone, ([], u))
  | MExist k => Val (OBool (match lookup k m with Some _ => true | None => false end), s)
  | MSize => Val (ONum (N.of_nat (length m) mod 2 ^ 32), s)
  | MKeys => Val (OKeys (map fst m), s)
  | MKeysAndValues => Val (OPairs m, s)
  | MIndex k => match lookup k m with Some v => Val (OGet 0 (Some v), s) | None => Abort end
  | MAssign k v => match lookup k m with Some _ => Val (ODone, (put k v m, u)) | None => Abort end
  | MSetUser u' => Val (ORet 0, (m, u'))
  | MGetUser => Val (OUser u, s)
  | MFlush => Val (ODone, s)
  end.
Fixpoint fm_run (ops : list mem_op) (s : fmap value * list N) : res (list out) :=
  match ops with
  | [] => Val []
  | op :: r => bind (fm_step op s) (fun '(o, s') => bind (fm_run r s') (fun os => Val (o :: os)))
  end.

(** Every key in the program is an object of the key type. *)
Definition op_keys (op : mem_op) : list value :=
  match op with
  | MInsert k _ | MGet k | MErase k | MExist k | MIndex k | MAssign k _ => [k]
  | MInsertRange l => map fst l
  | _ => []
  end.
Definition keys_typed (klt : value -> value -> bool) (tk : ty) (ops : list mem_op) : Prop :=
  Forall (fun op => Forall (has_type klt tk) (op_keys op)) ops.

Definition res_outs (a b : res (list out)) : Prop :=
  match a, b with
  | Val l, Val m => Forall2 same_out l m
  | Abort, Abort => True
  | _, _ => False
  end.

(** ** Sessions with a MapObjectDisk *)
Inductive disk_op :=
| DInsert (k v : value) | DGet (k : value) | DFlush | DExist (k : value) | DSize | DKeys | DGetUser.

Section DiskPrograms.
  Variable klt : value -> value -> bool.
  Variables tk tv : ty.

  Definition disk_step (h : host) (op : disk_op) (o : disk) : res (out * disk) :=
    match op with
    | DInsert k v => bind (disk_insert tk tv h k v o) (fun '(r, o) => Val (ORet r, o))
    | DGet k => bind (disk_get klt tk tv h k o) (fun '(r, v, o) => Val (OGet r v, o))
    | DFlush => bind (disk_flush h o) (fun o => Val (ODone, o))
    | DExist k => bind (disk_exist tk h k o) (fun b => Val (OBool b, o))
    | DSize => Val (ONum (disk_size o), o)
    | DKeys => bind (disk_keys klt tk h o) (fun l => Val (OKeys l, o))
    | DGetUser => match disk_getUserdata o with
                  | (O, Some u) => Val (OUser u, o)
                  | (r, _) => Val (ORet r, o)
                  end
    end.
  Fixpoint disk_run (h : host) (ops : list disk_op) (o : disk) : res (list out * disk) :=
    match ops with
    | [] => Val ([], o)
    | op :: r => bind (disk_step h op o) (fun '(x, o) =>
                 bind (disk_run h r o) (fun '(xs, o) => Val (x :: xs, o)))
    end.

  (** A session: a new object opens the file (None: no such file), runs a program and closes; the outputs and the
      file left behind.  The first session creates the file with user data. *)
  Definition session (h : host) (file : option (list N)) (mode : openmode) (user : list N) (ops : list disk_op)
    : res (list out * list N) :=
    bind (disk_open h file mode (snd (disk_insertUserdata user new_disk))) (fun o =>
    bind (disk_run h ops o) (fun '(xs, o) =>
    bind (disk_close h o) (fun o => Val (xs, disk_file o)))).
  Definition read_write : openmode := mkMode true false.
  Definition create : openmode := mkMode true true.
  Fixpoint sessions (file : list N) (l : list (host * list disk_op)) : res (list (list out) * list N) :=
    match l with
    | [] => Val ([], file)
    | (h, ops) :: r => bind (session h (Some file) read_write [] ops) (fun '(xs, file) =>
                       bind (sessions file r) (fun '(xss, file) => Val (xs :: xss, file)))
    end.
End DiskPrograms.

(** *** What the sessions should return

    A finite map from keys to values, with the room each record has in the file (the size
    of the value first stored), whether the stream is past all records, whether there is
    anything to flush, the user data, and a bound on the length of the file. *)
Record store := mkStore {
  t_map : fmap (value * nat); t_past : bool; t_dirty : bool; t_user : list N; t_len : N }.

Section DiskSpec.
  Variable klt : value -> value -> bool.
  Variables tk tv : ty.

  (** The number of bytes write produces. *)
  Definition nbytes (t : ty) (v : value) : nat :=
    match write_val BigE t v buffer_empty with Val st => length (buffer_str st) | _ => 0%nat end.

  Definition header_len (user : list N) : N := N.of_nat (length file_magic + 4 + 4 + length user + 4 + 16).
  (** bytes of the key map written at the end of the file *)
  Definition keymap_len {A} (m : fmap A) : N :=
    8 + fold_right (fun p n => N.of_nat (nbytes tk (fst p)) + 20 + n) 0 m.

  Definition store_step (op : disk_op) (s : store) : out * store :=
    match op with
    | DInsert k v =>
        (ORet 0,
         match lookup k (t_map s) with
         | Some (_, room) => mkStore (put k (v, room) (t_map s)) false true (t_user s) (t_len s)
         | None => mkStore (put k (v, nbytes tv v) (t_map s)) true true (t_user s) (t_len s + N.of_nat (nbytes tv v) + 4)
         end)
    | DGet k =>
        match lookup k (t_map s) with
        | Some (v, _) => (OGet 0 (Some v), mkStore (t_map s) false (t_dirty s) (t_user s) (t_len s))
        | None => (OGet 1 None, s)
        end
    | DFlush =>
        (ODone, if t_dirty s then mkStore (t_map s) true false (t_user s) (t_len s + keymap_len (t_map s)) else s)
    | DExist k => (OBool (match lookup k (t_map s) with Some _ => true | None => false end), s)
    | DSize => (ONum (N.of_nat (length (t_map s)) mod 2 ^ 32), s)
    | DKeys => (OKeys (map fst (t_map s)), s)
    | DGetUser => (OUser (t_user s), s)
    end.
  (** The operations for which the class keeps its promise: an update may not be larger than
      the value first stored under the key, and a new key may only be inserted while the stream
      is past all records. *)
  Definition legal (op : disk_op) (s : store) : Prop :=
    match op with
    | DInsert k v =>
        has_type klt tk k /\ has_type klt tv v /\ int_size (nbytes tk k) /\
        match lookup k (t_map s) with
        | Some (_, room) => (nbytes tv v <= room)%nat
        | None => t_past s = true
        end
    | DGet k | DExist k => has_type klt tk k
    | _ => True
    end.
  (** No 64-bit or 32-bit limit is hit, now or by writing the key map. *)
  Definition fits (s : store) : Prop :=
    t_len s + keymap_len (t_map s) < 2 ^ 63 /\ N.of_nat (length (t_map s)) < 2 ^ 32.

  Fixpoint store_run (ops : list disk_op) (s : store) : list out * store :=
    match ops with
    | [] => ([], s)
    | op :: r => let '(x, s1) := store_step op s in let '(xs, s2) := store_run r s1 in (x :: xs, s2)
    end.
  Fixpoint legal_run (ops : list disk_op) (s : store) : Prop :=
    match ops with
    | [] => fits s
    | op :: r => fits s /\ legal op s /\ legal_run r (snd (store_step op s))
    end.

  (** A new file; and closing and reopening it. *)
  Definition created (user : list N) : store := mkStore [] true true user (header_len user).
  Definition reopened (s : store) : store :=
    mkStore (t_map s) true false (t_user s) (if t_dirty s then t_len s + keymap_len (t_map s) else t_len s).
  Fixpoint store_sessions (l : list (host * list disk_op)) (s : store) : list (list out) * store :=
    match l with
    | [] => ([], s)
    | (_, ops) :: r => let '(xs, s1) := store_run ops s in
                       let '(xss, s2) := store_sessions r (reopened s1) in (xs :: xss, s2)
    end.
  Fixpoint legal_sessions (l : list (host * list disk_op)) (s : store) : Prop :=
    match l with
    | [] => True
    | (_, ops) :: r => legal_run ops s /\ legal_sessions r (reopened (snd (store_run ops s)))
    end.
End DiskSpec.

(** A machine whose division by zero delivers zero, of any byte order, traversing unordered
    maps in any order. *)
Definition host_ok (h : host) : Prop :=
  h_zd h = DivGivesZero /\ forall m, Permutation (h_iter h m) m.

(** User data: a string of chars whose length is an int. *)
Definition user_ok (u : list N) : Prop := bytes_ok u /\ int_size (length u).

(** A file that was created by one session and used by any number of further sessions, on
    any machines, together with the state it should be in. *)
Inductive stored (klt : value -> value -> bool) (tk tv : ty) : list N -> store -> Prop :=
| stored_create h file user ops xs d :
    host_ok h -> user_ok user -> legal_run klt tk tv ops (created user) ->
    session klt tk tv h file create user ops = Val (xs, d) ->
    stored klt tk tv d (reopened tk (snd (store_run tk tv ops (created user))))
| stored_session h d s ops xs d' :
    stored klt tk tv d s -> host_ok h -> legal_run klt tk tv ops s ->
    session klt tk tv h (Some d) read_write [] ops = Val (xs, d') ->
    stored klt tk tv d' (reopened tk (snd (store_run tk tv ops s))).

(** ** Several files read as one *)
Inductive multi_op := XGet (k : value) | XExist (k : value) | XKeys | XGetUser.
Inductive multi_out := XFound (v : value) | XMissing | XBool (b : bool) | XList (l : list value) | XUser (u : list N).
Section MultiPrograms.
  Variable klt : value -> value -> bool.
  Variables tk tv : ty.
  Definition multi_step (h : host) (iter1 : umap unit -> list (list N * unit)) (op : multi_op) (dbs : list (option disk))
    : res (multi_out * list (option disk)) :=
    match op with
    | XGet k => bind (multi_get klt tk tv h k dbs) (fun '(ret, v, dbs) =>
                match v with
                | Some v => if (ret =? 0)%Z then Val (XFound v, dbs) else Undef
                | None => if (ret =? 0)%Z then Undef else Val (XMissing, dbs)
                end)
    | XExist k => bind (multi_exist tk h k dbs) (fun b => Val (XBool b, dbs))
    | XKeys => bind (multi_keys klt tk h iter1 dbs) (fun l => Val (XList l, dbs))
    | XGetUser => bind (multi_getUserdata dbs) (fun '(ret, u) =>
                  match u with Some u => Val (XUser u, dbs) | None => Val (XMissing, dbs) end)
    end.
  Fixpoint multi_run (h : host) (iter1 : umap unit -> list (list N * unit)) (ops : list multi_op) (dbs : list (option disk))
    : res (list multi_out) :=
    match ops with
    | [] => Val []
    | op :: r => bind (multi_step h iter1 op dbs) (fun '(x, dbs) => bind (multi_run h iter1 r dbs) (fun xs => Val (x :: xs)))
    end.
End MultiPrograms.
(** What the operation should return: the value in the first file that has the key; the keys of
    all files, each once; the user data of the first file. *)
Fixpoint first_found (k : value) (l : list store) : option value :=
  match l with
  | [] => None
  | s :: r => match lookup k (t_map s) with Some (v, _) => Some v | None => first_found k r end
  end.
Definition multi_expected (op : multi_op) (l : list store) (x : multi_out) : Prop :=
  match op with
  | XGet k => x = match first_found k l with Some v => XFound v | None => XMissing end
  | XExist k => x = XBool (match first_found k l with Some _ => true | None => false end)
  | XKeys => exists ks, x = XList ks /\ NoDup ks /\ forall k, In k ks <-> first_found k l <> None
  | XGetUser => x = match l with [] => XMissing | s :: _ => XUser (t_user s) end
  end.
Definition multi_typed (klt : value -> value -> bool) (tk : ty) (op : multi_op) : Prop :=
  match op with XGet k | XExist k => has_type klt tk k | _ => True end.

(** ** Crashes

    A run of bytes is written in ascending order.  If [before] and [after] are the contents of
    the file before and after, a crash leaves the new bytes up to some point and the old ones from there
    on. *)
Definition torn (before after : list N) (n : nat) : list N := firstn n after ++ skipn n before.

(** The files a crash can leave during one operation of a session: insert writes one run (record
    and checksum); flush and close write the key map, then the link to it, and a crash
    during the latter is excluded here. *)
Definition crash_file (tk tv : ty) (h : host) (o : disk) (op : disk_op) (file : list N) : Prop :=
  match op with
  | DInsert k v => exists r o' n, disk_insert tk tv h k v o = Val (r, o') /\ file = torn (disk_file o) (disk_file o') n
  | DFlush => d_state o = MODIFIED /\
              exists md st n, closeWrite_map h o = Val (md, st) /\ file = torn (disk_file o) (s_data st) n
  | _ => file = disk_file o
  end.

(** The operation neither updates one of the keys [F] nor flushes. *)
Definition spares (F : list value) (op : disk_op) : Prop :=
  match op with DInsert k _ => ~ In k F | DFlush => False | _ => True end.
(** What was last flushed, found in a file [f] after a crash. *)
Definition flushed_only (s : store) (f : list N) : store := mkStore (t_map s) true false (t_user s) (N.of_nat (length f)).

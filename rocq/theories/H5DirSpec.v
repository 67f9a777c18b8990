(** Specification for HDF5 files as trees of named objects.  Of the model only the types of files, states,
    outcomes and commands are used, and the path of the working group. *)
From Coq Require Import String Ascii List Arith NArith.
From Verif Require Import H5DirModel.
Import ListNotations.
Local Open Scope nat_scope.

(** A name of one component. *)
Definition proper (c : string) : Prop :=
  c <> ""%string /\ c <> "."%string /\ forall a b, c <> (a ++ String "/" b)%string.
(** A string that spells components: separated by slashes, with any number of further slashes. *)
Inductive spells : string -> path -> Prop :=
| sp_one c : proper c -> spells c [c]
| sp_cons c s cs : proper c -> spells s cs -> spells (c ++ String "/" s) (c :: cs)
| sp_lead s cs : spells s cs -> spells (String "/" s) cs
| sp_trail s cs : spells s cs -> spells (s ++ "/") cs.
(** In a working group a name denotes a path. *)
Definition denotes (cwd : path) (s : string) (p : path) : Prop :=
  exists cs, spells s cs /\
    ((exists s', s = String "/" s') /\ p = cs \/ (forall s', s <> String "/" s') /\ p = cwd ++ cs).

(** A file is a tree of proper names below the root group; only objects have attributes. *)
Definition tree (F : file) : Prop :=
  obj F [] = Some Group /\
  (forall p c, obj F (p ++ [c]) <> None -> obj F p = Some Group) /\
  (forall p, obj F p <> None -> Forall proper p) /\
  (forall p a, att F p a <> None -> obj F p <> None).
Definition is_group (F : file) (p : path) : Prop := obj F p = Some Group.
(** An open file with a working group. *)
Definition good (x : st) : Prop :=
  tree (s_file x) /\ is_group (s_file x) (s_cwd x) /\ g_id (s_cur x) < s_next x.

(** A call that returns [r] after some number of turns of its loops. *)
Definition ends {A} (f : nat -> out A) (r : out A) : Prop := exists n, forall fuel, n <= fuel -> f fuel = r.
(** A call that never returns. *)
Definition never_ends {A} (f : nat -> out A) : Prop := forall fuel, f fuel = Running.

Definition above (p q : path) : Prop := exists r, q = p ++ r.
(** [F'] is [F] with groups made at [p] and above where there was nothing. *)
Definition with_groups (F F' : file) (p : path) : Prop :=
  (forall q, above q p -> obj F' q = Some Group) /\
  (forall q, ~ above q p -> obj F' q = obj F q) /\
  (forall q, obj F q <> None -> obj F' q = obj F q) /\
  (forall q a, att F' q a = att F q a).
(** [F'] is [F] except at the path [p], where it has [o] without attributes. *)
Definition with_object (F F' : file) (p : path) (o : option node) : Prop :=
  obj F' p = o /\ (forall a, att F' p a = None) /\
  forall q, q <> p -> obj F' q = obj F q /\ forall a, att F' q a = att F q a.
(** [F'] is [F] except for the attribute [a] of [p]. *)
Definition with_att (F F' : file) (p : path) (a : string) (d : option data) : Prop :=
  (forall q, obj F' q = obj F q) /\ att F' p a = d /\
  forall q b, (q, b) <> (p, a) -> att F' q b = att F q b.
(** The same contents. *)
Definition same (F F' : file) : Prop := (forall q, obj F' q = obj F q) /\ forall q a, att F' q a = att F q a.

(** Nothing but groups at a path and above. *)
Definition open_way (F : file) (p : path) : Prop := forall q, above q p -> obj F q = None \/ obj F q = Some Group.
(** A dataset may be written: the group above is there, and the name is free, or a dataset may be replaced. *)
Definition may_write (F : file) (p : path) (trunc : bool) : Prop :=
  is_group F (removelast p) /\ (obj F p = None \/ trunc = true /\ exists d0, obj F p = Some (Dataset d0)).

(** The commands that may change the object at a path, or its attributes. *)
Definition touches (cwd : path) (c : cmd) (p : path) : Prop :=
  match c with
  | Write _ s _ _ | WriteAtt _ s _ _ _ | DelAtt s _ | DelAtts s => denotes cwd s p
  | WriteTyped _ tn _ s _ _ _ => denotes cwd s p \/ p = [tn]
  | WriteQlua s _ _ => exists q, denotes cwd s q /\ above q p
  | _ => False
  end.
(** Names in commands are spelled properly. *)
Definition spelled (c : cmd) : Prop :=
  match c with
  | Write _ s _ _ | WriteAtt _ s _ _ _ | DelAtt s _ | DelAtts s => exists cs, spells s cs
  | WriteQlua s ds _ => (exists cs, spells s cs) /\ List.length ds <= 10
  | WriteTyped _ tn _ s _ _ _ => proper tn /\ exists cs, spells s cs
  | Push s | Mkdir s => s = ""%string \/ s = "/"%string \/ exists cs, spells s cs
  | ChDir _ | Pop => True
  end.

(** The object at a path and its attributes are the same in two files. *)
Definition kept (F F' : file) (p : path) : Prop := obj F' p = obj F p /\ forall a, att F' p a = att F p a.
(** No command of a program that starts in [x] touches the path. *)
Definition untouched (exec : cmd -> st -> out st) (cs : list cmd) (x : st) (p : path) : Prop :=
  forall cs1 c cs2 y, cs = cs1 ++ c :: cs2 ->
    fold_left (fun r c => match r with Ok z => exec c z | _ => r end) cs1 (Ok x) = Ok y -> ~ touches (s_cwd y) c p.
(** The same for one attribute of the object. *)
Definition touches_att (cwd : path) (c : cmd) (p : path) (a : string) : Prop :=
  match c with
  | WriteAtt _ s b _ _ | DelAtt s b => denotes cwd s p /\ b = a
  | _ => touches cwd c p
  end.
Definition untouched_att (exec : cmd -> st -> out st) (cs : list cmd) (x : st) (p : path) (a : string) : Prop :=
  forall cs1 c cs2 y, cs = cs1 ++ c :: cs2 ->
    fold_left (fun r c => match r with Ok z => exec c z | _ => r end) cs1 (Ok x) = Ok y -> ~ touches_att (s_cwd y) c p a.

(** ** Values *)
Definition type_of (v : value) : vtype :=
  match v with
  | VScalar t _ => YScalar t | VArray t _ => YArray t | VArray2 t _ _ => YArray2 t | VString _ => YString
  | VComplex b _ _ => YComplex b | VComplexes b _ => YComplexes b
  | VObject w n _ => YObject w n | VObjects w n _ => YObjects w n
  end.
(** Values that can be stored: rows of equal length; strings without zero bytes; objects of [n] words of
    4 or 8 bytes that fill a whole number of REALs, and not an empty array of them. *)
Definition object_ok (w n : nat) (v : list N) : Prop := List.length v = n /\ Forall (fun x => (x < 2 ^ (8 * N.of_nat w))%N) v.
Definition value_ok (real : nat) (v : value) : Prop :=
  match v with
  | VArray2 _ n1 rows => Forall (fun r => List.length r = n1) rows
  | VString cs => Forall (fun c => c <> 0%N) cs
  | VObject w n v => 0 < w /\ 0 < n /\ (exists m, n * w = m * real) /\ object_ok w n v
  | VObjects w n vs => 0 < w /\ 0 < n /\ (exists m, n * w = m * real) /\ Forall (object_ok w n) vs /\ vs <> []
  | _ => True
  end.
(** The path of the named type a value is written with, and the type. *)
Definition names_type (v : value) (q : path) (t : dtype) : Prop :=
  match v with
  | VComplex b _ _ | VComplexes b _ => q = [if b then ".ComplexDouble"%string else ".ComplexFloat"%string] /\ t = complex_t (if b then 8 else 4)
  | _ => False
  end.
Definition types_ok (F : file) (v : value) (p : path) : Prop :=
  forall q t, names_type v q t -> p <> q /\ (obj F q = None \/ obj F q = Some (NamedType t)).
(** What the elements of a dataset are. *)
Inductive etype := EC (t : cty) | EString | EComplex (dbl : bool).
Definition elements (y : vtype) : option etype :=
  match y with
  | YScalar t | YArray t | YArray2 t => Some (EC t) | YString => Some EString
  | YComplex b | YComplexes b => Some (EComplex b) | YObject _ _ | YObjects _ _ => None
  end.
(** Number of extents. *)
Definition rank (y : vtype) : nat :=
  match y with YScalar _ | YString | YComplex _ => 0 | YArray2 _ => 2 | _ => 1 end.

(** Model of HDF5 files as trees of named objects: groups, working group, datasets that are not lattice
    objects, attributes.  lib/qdp_hdf5.cc and include/qdp_hdf5.h.

    HDF5 is another library; its side of the calls is the contract in section "HDF5".  All nodes make the
    same calls; where a value differs between the nodes the value of node 0 is written
    (lib/qdp_hdf5.cc:1692-1726, include/qdp_hdf5.h:1108, 1142), so one value is modelled.  Allocations
    succeed.  Messages, profiling and the values of lattice objects (Hdf5Model.v) are not modelled here. *)
From Coq Require Import String Ascii List Arith NArith Bool.
From Verif Require Import Base LayoutModel LayoutSpec CrcModel LatIoModel.
Import ListNotations.
Local Open Scope nat_scope.
Local Notation length := List.length.
Local Notation "s =s? t" := (String.eqb s t) (at level 70).

(** ** Names *)
Definition path := list string.
Definition peq (p q : path) : bool := if list_eq_dec string_dec p q then true else false.
Definition slash : ascii := "/"%char.

(** The parts of a string between slashes; HDF5::tokenize with "/", lib/qdp_hdf5.cc:97-111, keeps the parts
    that are not empty (so the erase loop of splitPathname, 113-125, finds nothing). *)
Fixpoint pieces (s : string) : list string :=
  match s with
  | EmptyString => [""%string]
  | String c s' =>
      if Ascii.eqb c slash then ""%string :: pieces s'
      else match pieces s' with p :: ps => String c p :: ps | [] => [String c ""] end
  end.
Definition tokens (s : string) : list string := filter (fun t => negb (t =s? "")) (pieces s).
(** name.find_first_of("/")==0 *)
Definition leading (s : string) : bool := match s with String c _ => Ascii.eqb c slash | _ => false end.
(** find_last_of("/") *)
Fixpoint last_slash (s : string) : option nat :=
  match s with
  | EmptyString => None
  | String c s' => match last_slash s' with Some n => Some (S n)
                   | None => if Ascii.eqb c slash then Some 0 else None end
  end.
(** H5Iget_name of a group: getNameById, lib/qdp_hdf5.cc:88-95. *)
Definition render (p : path) : string :=
  match p with [] => "/"%string | _ => fold_right (fun c s => String slash (c ++ s)) ""%string p end.
(** parentDir: lib/qdp_hdf5.cc:81-86. *)
Definition parent_dir (s : string) : string :=
  match last_slash s with Some 0 => "/"%string | Some n => substring 0 n s | None => s end.

(** ** HDF5 *)

(** Datatypes: class with the sign of integers, size of an element in bytes, size of the floats in it. *)
Inductive cls := CInt (sgn : bool) | CFloat | CStr | CCplx | CArr.
Record dtype := mkT { t_cls : cls; t_size : nat; t_base : nat }.
(** Contents of a dataset or an attribute: extents ([nil]: H5S_SCALAR) and the elements in row-major order;
    an element is the list of its words, a string the list of its bytes. *)
Record data := mkData { d_ty : dtype; d_dims : list nat; d_elts : list (list N) }.
Inductive node := Group | Dataset (d : data) | NamedType (t : dtype).
(** A file: the object at each path and the attributes of the objects.  No object has two names (the
    library makes no links). *)
Record file := mkFile { obj : path -> option node; att : path -> string -> option data }.
Definition set_obj (F : file) (p : path) (o : option node) : file :=
  mkFile (fun q => if peq q p then o else obj F q) (fun q => if peq q p then fun _ => None else att F q).
Definition set_att (F : file) (p : path) (a : string) (d : option data) : file :=
  mkFile (obj F) (fun q b => if peq q p && (b =s? a) then d else att F q b).
(** Everything at or below a path removed: H5Ldelete of a group. *)
Fixpoint below (p q : path) : bool :=
  match p, q with [], _ => true | x :: p', y :: q' => (x =s? y) && below p' q' | _, [] => false end.
Definition del_tree (F : file) (p : path) : file :=
  mkFile (fun q => if below p q then None else obj F q) (fun q => if below p q then fun _ => None else att F q).

(** The path a name denotes: empty components and "." are skipped, ".." is an ordinary name. *)
Definition plain (ts : list string) : path := filter (fun t => negb (t =s? ".")) ts.
Definition h5_abs (loc : path) (s : string) : path := (if leading s then [] else loc) ++ plain (tokens s).

(** An open group: identifier and path.  Identifiers are never used twice. *)
Record grp := mkG { g_id : nat; g_path : path }.
Definition h5_gopen (F : file) (loc : path) (s : string) (id : nat) : option grp :=
  match obj F (h5_abs loc s) with Some Group => Some (mkG id (h5_abs loc s)) | _ => None end.
(** H5Dcreate, H5Gcreate: the group above must exist and the name must be free. *)
Definition h5_create (F : file) (p : path) (o : node) : option file :=
  match p with
  | [] => None
  | _ => match obj F (removelast p), obj F p with Some Group, None => Some (set_obj F p (Some o)) | _, _ => None end
  end.

(** Outcomes: normal return; HDF5_error_exit, with the file as it is left; no meaning; still running. *)
Inductive out (A : Type) := Ok (a : A) | Stop (F : file) | UB | Running.
Arguments Ok {A} a. Arguments Stop {A} F. Arguments UB {A}. Arguments Running {A}.
Definition obind {A B} (r : out A) (f : A -> out B) : out B :=
  match r with Ok a => f a | Stop F => Stop F | UB => UB | Running => Running end.

(** An open HDF5Writer: the file, current_group, and the next identifier HDF5 gives. *)
Record st := mkS { s_file : file; s_cur : grp; s_next : nat }.
Definition s_cwd (x : st) : path := g_path (s_cur x).
Definition with_file (x : st) (F : file) : st := mkS F (s_cur x) (s_next x).

Section Dir.
  (** What H5Lexists says of a name that ends in ".", and the number of bytes of the largest attribute
      HDF5 stores in the file. *)
  Variable dot : bool.
  Variable att_max : nat.

  Definition h5_lexists (F : file) (loc : path) (ts : list string) : bool :=
    if last ts ""%string =s? "." then dot
    else match obj F (loc ++ plain ts) with Some _ => true | None => false end.

  (** objectExists: lib/qdp_hdf5.cc:132-153; [None]: dirlist[0] of an empty list.  The names asked for are
      the first components joined by slashes. *)
  Definition object_exists (F : file) (loc : path) (s : string) : option bool :=
    let start := if leading s then [] else loc in
    match tokens s with
    | [] => None
    | ts => Some (forallb (fun k => h5_lexists F start (firstn k ts)) (seq 1 (length ts)))
    end.

  (** ** Navigation *)

  (** pwd: lib/qdp_hdf5.cc:77-79. *)
  Definition pwd (x : st) : string := render (s_cwd x).
  (** pop: lib/qdp_hdf5.cc:198-213. *)
  Definition pop (x : st) : out st :=
    if pwd x =s? "/" then Ok x
    else match h5_gopen (s_file x) [] (parent_dir (pwd x)) (s_next x) with
         | Some g => Ok (mkS (s_file x) g (S (s_next x)))
         | None => UB
         end.
  (** The loops of cd, lib/qdp_hdf5.cc:237-247; [fuel] bounds the number of turns. *)
  Fixpoint pop_to_root (fuel : nat) (x : st) : out st :=
    if pwd x =s? "/" then Ok x
    else match fuel with 0 => Running | S f => obind (pop x) (pop_to_root f) end.
  Fixpoint pop_to_id (fuel id : nat) (x : st) : out st :=
    if g_id (s_cur x) =? id then Ok x
    else match fuel with 0 => Running | S f => obind (pop x) (pop_to_id f id) end.
  (** cd: lib/qdp_hdf5.cc:215-250. *)
  Definition cd (fuel : nat) (s : string) (x : st) : out st :=
    if s =s? ".." then pop x
    else if s =s? pwd x then Ok x
    else match h5_gopen (s_file x) (s_cwd x) s (s_next x) with
         | None => Ok x
         | Some g =>
             let x1 := mkS (s_file x) (s_cur x) (S (s_next x)) in
             let ndir := render (g_path g) in
             let cdir := pwd x in
             obind (if (match index 0 cdir ndir with None => true | _ => false end) || (ndir =s? "/") then pop_to_root fuel x1
                    else if prefix ndir cdir then pop_to_id fuel (g_id g) x1
                    else Ok x1)
               (fun x2 => Ok (mkS (s_file x2) g (s_next x2)))
         end.
  (** The loop of push, lib/qdp_hdf5.cc:1618-1662. *)
  Fixpoint push_loop (ts : list string) (x : st) : out st :=
    match ts with
    | [] => Ok x
    | t :: ts' =>
        if h5_lexists (s_file x) (s_cwd x) [t] then
          match obj (s_file x) (s_cwd x ++ plain [t]) with
          | Some Group => push_loop ts' (mkS (s_file x) (mkG (s_next x) (s_cwd x ++ plain [t])) (S (s_next x)))
          | _ => Ok x
          end
        else if t =s? "." then Stop (s_file x)
        else match h5_create (s_file x) (s_cwd x ++ [t]) Group with
             | Some F => push_loop ts' (mkS F (mkG (s_next x) (s_cwd x ++ [t])) (S (s_next x)))
             | None => Stop (s_file x)
             end
    end.
  (** push: lib/qdp_hdf5.cc:1606-1665. *)
  Definition push (fuel : nat) (s : string) (x : st) : out st :=
    obind (if leading s then cd fuel "/" x else Ok x) (push_loop (tokens s)).
  (** mkdir: lib/qdp_hdf5.cc:1597-1603. *)
  Definition mkdir (fuel : nat) (s : string) (x : st) : out st :=
    if (s =s? "") || (s =s? "/") then Ok x
    else obind (push fuel s x) (cd fuel (pwd x)).

  (** ** Writing *)

  (** The functions that write datasets differ in what they do when the name is taken or cannot be
      created: wt of one value, include/qdp_hdf5.h:1080-1110; wt of one- and two-dimensional arrays,
      1112-1222; write of a string, lib/qdp_hdf5.cc:1873-1909; writePrepare and writeLattice, 2132-2237. *)
  Inductive kind := KScalar | KArray | KString | KLattice.
  Definition write (k : kind) (s : string) (d : data) (trunc : bool) (x : st) : out st :=
    let F := s_file x in
    let p := h5_abs (s_cwd x) s in
    let refuse := match k with KString => Ok x | _ => Stop F end in
    let create F := if last (tokens s) ""%string =s? "." then None else h5_create F p (Dataset d) in
    match object_exists F (s_cwd x) s with
    | None => UB
    | Some true =>
        if negb trunc then refuse
        else match obj F p with
             | Some (Dataset _) =>
                 match create (set_obj F p None) with Some F' => Ok (with_file x F') | None => UB end
             | _ => refuse
             end
    | Some false =>
        match create F with
        | Some F' => Ok (with_file x F')
        | None => match k with KArray => Stop F | _ => Ok x end
        end
    end.
  (** write of ComplexF, ComplexD, arrays of them, ColorMatrixF3 and D3 (here for the last type committed):
      lib/qdp_hdf5.cc:1976-2122, commitType include/qdp_hdf5.h:984-991. *)
  Definition commit (tn : string) (t : dtype) (x : st) : out (dtype * st) :=
    let F := s_file x in
    match obj F [tn] with
    | None => Ok (t, with_file x (set_obj F [tn] (Some (NamedType t))))
    | Some (NamedType t') => Ok (t', x)
    | Some _ => Stop F
    end.
  Definition write_typed (k : kind) (tn : string) (t : dtype) (s : string) (dims : list nat) (elts : list (list N))
             (trunc : bool) (x : st) : out st :=
    obind (commit tn t x) (fun tx => write k s (mkData (fst tx) dims elts) trunc (snd tx)).

  (** wtAtt and writeAttribute of a string: include/qdp_hdf5.h:1001-1074, lib/qdp_hdf5.cc:1766-1808.
      [long]: an array or a string, whose size is compared with 64 kB. *)
  Definition bytes (d : data) : nat := t_size (d_ty d) * length (d_elts d).
  (** 64*1024 *)
  Definition limit : N := 65536.
  Definition write_att (long : bool) (s a : string) (d : data) (trunc : bool) (x : st) : out st :=
    let F := s_file x in
    let p := h5_abs (s_cwd x) s in
    match object_exists F (s_cwd x) s with
    | None => UB
    | Some false => Stop F
    | Some true =>
        let go F1 :=
          if long && (limit <? N.of_nat (bytes d))%N then Stop F1
          else if (att_max <? bytes d) then Ok (with_file x F1)
          else Ok (with_file x (set_att F1 p a (Some d))) in
        match att F p a with
        | Some _ => if negb trunc then Stop F else go (set_att F p a None)
        | None => go F
        end
    end.
  (** deleteAttribute, deleteAllAttributes: lib/qdp_hdf5.cc:1668-1685. *)
  Definition del_att (s a : string) (x : st) : out st :=
    Ok (with_file x (set_att (s_file x) (h5_abs (s_cwd x) s) a None)).
  Definition del_atts (s : string) (x : st) : out st :=
    let p := h5_abs (s_cwd x) s in
    Ok (with_file x (mkFile (obj (s_file x)) (fun q => if peq q p then fun _ => None else att (s_file x) q))).

  (** Decimal digits, std::stringstream << i, for i below 10. *)
  Definition digit (i : nat) : string := String (ascii_of_nat (48 + i)) "".
  (** Contents of a string: the bytes and the final zero. *)
  Definition data_string (cs : list N) : data := mkData (mkT CStr (S (length cs)) 0) [] [cs ++ [0%N]].
  Definition kind_name : list N :=
    map (fun c => N_of_ascii c) (list_ascii_of_string "LatticeColorMatrix").

  (** writeQlua: lib/qdp_hdf5.cc:2634-2684; [ds]: the datasets of the Nd directions.  If the working group
      is deleted its name is lost and pop opens nothing. *)
  Definition write_qlua (fuel : nat) (s : string) (ds : list data) (trunc : bool) (x : st) : out st :=
    let F := s_file x in
    let p := h5_abs (s_cwd x) s in
    let body x0 :=
      obind (push fuel s x0) (fun x1 =>
      obind (fold_left (fun r id => obind r (fun y =>
               obind (write KLattice (digit (fst id)) (snd id) false y) (fun y =>
               write_att true (digit (fst id)) ".kind" (data_string kind_name) false y)))
               (combine (seq 0 (length ds)) ds) (Ok x1)) pop) in
    match object_exists F (s_cwd x) s with
    | None => UB
    | Some false => body x
    | Some true =>
        if negb trunc then Stop F
        else match obj F p with
             | Some Group =>
                 if forallb (fun i => match obj F (p ++ [digit i]) with Some _ => true | None => false end) (seq 0 (length ds))
                 then if below p (s_cwd x) then UB else body (with_file x (del_tree F p))
                 else Stop F
             | _ => Stop F
             end
    end.

  (** ** Programs *)
  Inductive cmd :=
  | Push (s : string) | Mkdir (s : string) | ChDir (s : string) | Pop
  | Write (k : kind) (s : string) (d : data) (trunc : bool)
  | WriteTyped (k : kind) (tn : string) (t : dtype) (s : string) (dims : list nat) (elts : list (list N)) (trunc : bool)
  | WriteAtt (long : bool) (s a : string) (d : data) (trunc : bool)
  | DelAtt (s a : string) | DelAtts (s : string)
  | WriteQlua (s : string) (ds : list data) (trunc : bool).
  Definition exec (fuel : nat) (c : cmd) (x : st) : out st :=
    match c with
    | Push s => push fuel s x
    | Mkdir s => mkdir fuel s x
    | ChDir s => cd fuel s x
    | Pop => pop x
    | Write k s d t => write k s d t x
    | WriteTyped k tn t s dims elts tr => write_typed k tn t s dims elts tr x
    | WriteAtt l s a d t => write_att l s a d t x
    | DelAtt s a => del_att s a x
    | DelAtts s => del_atts s x
    | WriteQlua s ds t => write_qlua fuel s ds t x
    end.
  Fixpoint run (fuel : nat) (cs : list cmd) (x : st) : out st :=
    match cs with [] => Ok x | c :: cs' => obind (exec fuel c x) (run fuel cs') end.

  (** ** Values *)

  (** The C++ types with functions of their own, and their HDF5 types. *)
  Inductive cty := TShort | TUShort | TInt | TUInt | TULLong | TFloat | TDouble.
  Definition cty_size (t : cty) : nat :=
    match t with TShort | TUShort => 2 | TInt | TUInt | TFloat => 4 | TULLong | TDouble => 8 end.
  Definition cty_cls (t : cty) : cls :=
    match t with TShort | TInt => CInt true | TUShort | TUInt | TULLong => CInt false | TFloat | TDouble => CFloat end.
  Definition ty_of (t : cty) : dtype := mkT (cty_cls t) (cty_size t) (cty_size t).
  Definition data_scalar (t : cty) (v : N) : data := mkData (ty_of t) [] [[v]].
  Definition data_array (t : cty) (vs : list N) : data := mkData (ty_of t) [length vs] (map (fun v => [v]) vs).
  (** multi2d: datum(i,j) with i below size2 and j below size1; include/qdp_hdf5.h:1185-1206. *)
  Definition data_array2 (t : cty) (n2 n1 : nat) (f : nat -> nat -> N) : data :=
    mkData (ty_of t) [n2; n1] (flat_map (fun i => map (fun j => [f i j]) (seq 0 n1)) (seq 0 n2)).
  Definition complex_t (w : nat) : dtype := mkT CCplx (2 * w) w.
  Definition colmat_t (w : nat) : dtype := mkT CArr (18 * w) w.

  (** ** Reading *)

  (** The part common to all reading functions: include/qdp_hdf5.h:271-288 and others. *)
  Definition find (s : string) (x : st) : res data :=
    match object_exists (s_file x) (s_cwd x) s with
    | None => Undef
    | Some false => Abort
    | Some true => match obj (s_file x) (h5_abs (s_cwd x) s) with Some (Dataset d) => Val d | _ => Abort end
    end.
  Definition find_att (s a : string) (x : st) : res data :=
    match object_exists (s_file x) (s_cwd x) s with
    | None => Undef
    | Some false => Abort
    | Some true => match att (s_file x) (h5_abs (s_cwd x) s) a with Some d => Val d | None => Abort end
    end.
  Definition cls_eqb (a b : cls) : bool :=
    match a, b with CInt s, CInt s' => Bool.eqb s s' | CFloat, CFloat | CStr, CStr | CCplx, CCplx | CArr, CArr => true | _, _ => false end.
  (** rigid_checks: class, size, sign; include/qdp_hdf5.h:285-305. *)
  Definition check (t : cty) (d : data) : res data :=
    if cls_eqb (t_cls (d_ty d)) (cty_cls t) && (t_size (d_ty d) =? cty_size t) then Val d else Abort.
  (** H5Dread and H5Aread of everything into a variable with room for one element, [old] before. *)
  Definition one (old : list N) (d : data) : res (list N) :=
    match d_elts d with [] => Val old | [v] => Val v | _ => Undef end.
  (** rd of one value, include/qdp_hdf5.h:271-322; of an array, 324-390; of a two-dimensional array, 392-462. *)
  Definition rd (t : cty) (old : list N) (s : string) (x : st) : res (list N) :=
    bind (find s x) (fun d => bind (check t d) (one old)).
  Definition rd_array (t : cty) (s : string) (x : st) : res (list (list N)) :=
    bind (find s x) (fun d => bind (check t d) (fun d =>
    if length (d_dims d) =? 1 then Val (d_elts d) else Abort)).
  Definition rd_array2 (t : cty) (s : string) (x : st) : res (nat * nat * (nat -> nat -> list N)) :=
    bind (find s x) (fun d => bind (check t d) (fun d =>
    match d_dims d with
    | [d0; d1] => Val (d0, d1, fun i j => nth (j + d1 * i) (d_elts d) [])
    | _ => Abort
    end)).
  (** read and readAttribute of a string: lib/qdp_hdf5.cc:554-588, 458-489.  std::string(datumcpy) ends at
      the first zero. *)
  Fixpoint c_str (bs : list N) : res (list N) :=
    match bs with [] => Undef | b :: bs' => if (b =? 0)%N then Val [] else bind (c_str bs') (fun r => Val (b :: r)) end.
  Definition text (d : data) : res (list N) :=
    if cls_eqb (t_cls (d_ty d)) CStr then match d_elts d with [bs] => c_str bs | _ => Undef end else Abort.
  Definition rd_string (s : string) (x : st) : res (list N) := bind (find s x) text.
  (** read of ComplexF, ComplexD and arrays of them: lib/qdp_hdf5.cc:653-763. *)
  Definition rd_complex (w : nat) (old : list N) (s : string) (x : st) : res (list N) :=
    bind (find s x) (fun d =>
    if cls_eqb (t_cls (d_ty d)) CCplx && (t_base (d_ty d) =? w) then one old d else Abort).
  Definition rd_complexes (w : nat) (s : string) (x : st) : res (list (list N)) :=
    bind (find s x) (fun d =>
    if cls_eqb (t_cls (d_ty d)) CCplx && (t_base (d_ty d) =? w)
    then if length (d_dims d) =? 1 then Val (d_elts d) else Abort else Abort).
  (** rdAtt: include/qdp_hdf5.h:156-258; readAttribute of a string. *)
  Definition rd_att (t : cty) (old : list N) (s a : string) (x : st) : res (list N) :=
    bind (find_att s a x) (fun d => bind (check t d) (one old)).
  Definition rd_att_array (t : cty) (s a : string) (x : st) : res (list (list N)) :=
    bind (find_att s a x) (fun d => bind (check t d) (fun d => Val (d_elts d))).
  Definition rd_att_string (s a : string) (x : st) : res (list N) := bind (find_att s a x) text.

  (** ** Objects without functions of their own *)
  Section Scalars.
    Variable e : endian.
    (** static_cast between floats of the given sizes, on bit patterns. *)
    Variable conv : nat -> nat -> N -> N.
    (** sizeof(REAL) of the build. *)
    Variable real : nat.
    Definition real_t : cty := if real =? 4 then TFloat else TDouble.
    (** write of OScalar<T> and of multi1d< OScalar<T> >, T made of words of [w] bytes and [n] of them:
        include/qdp_hdf5.h:1327-1351.  memcpy of sizeof(T) bytes to obj_size words of REAL. *)
    Definition oscalar_data (w n : nat) (vs : list (list N)) : res data :=
      let o := n * w / real in
      if o * real <? n * w then Undef
      else Val (data_array real_t (concat (map (fun v => unimage e real o (image e w v)) vs))).
    Definition write_oscalar (s : string) (w n : nat) (v : list N) (trunc : bool) (x : st) : out st :=
      match oscalar_data w n [v] with Val d => write KArray s d trunc x | _ => UB end.
    Definition write_oscalars (s : string) (w n : nat) (vs : list (list N)) (trunc : bool) (x : st) : out st :=
      match oscalar_data w n vs with Val d => write KArray s d trunc x | _ => UB end.
    (** read of OScalar<T>, include/qdp_hdf5.h:564-601; of multi1d< OScalar<T> >, 603-641.  The words are
        converted to REAL and sizeof(T) bytes copied from the buffer. *)
    Definition floats (hs : nat) (s : string) (x : st) : res (list N) :=
      bind (rd_array (if hs =? 4 then TFloat else TDouble) s x) (fun ws =>
      Val (map (fun v => let v := nth 0 v 0%N in if hs =? real then v else conv hs real v) ws)).
    Definition rd_oscalar (s : string) (w n : nat) (x : st) : res (list N) :=
      bind (find s x) (fun d =>
      let hs := t_size (d_ty d) in
      if negb ((hs =? 4) || (hs =? 8)) then Abort
      else match d_dims d with
           | [o] =>
               if negb (o * hs =? n * w) then Abort
               else bind (floats hs s x) (fun buf =>
                    if o * real <? n * w then Undef
                    else Val (unimage e w n (image e real buf)))
           | _ => Abort
           end).
    Definition rd_oscalars (s : string) (w n : nat) (x : st) : res (list (list N)) :=
      bind (find s x) (fun d =>
      let hs := t_size (d_ty d) in
      if negb ((hs =? 4) || (hs =? 8)) then Abort
      else match d_dims d with
           | [o] =>
               if negb ((o * hs) mod (n * w) =? 0) then Abort
               else
                 let arr := o * hs / (n * w) in
                 if arr =? 0 then Undef                              (* obj_size/=arr_size *)
                 else
                   let o := o / arr in
                   bind (floats hs s x) (fun buf =>
                   if o * arr * real <? (arr - 1) * o * real + n * w then Undef
                   else Val (map (fun i => unimage e w n (image e real (skipn (i * o) buf))) (seq 0 arr)))
           | _ => Abort
           end).
    (** ** The overloads of write and read *)

    (** Values: one number; an array; a two-dimensional array (size1 and the rows); a string; a complex number
        and an array of them, float or double; an OScalar of [n] words of [w] bytes and an array of them. *)
    Inductive value :=
    | VScalar (t : cty) (v : N) | VArray (t : cty) (vs : list N) | VArray2 (t : cty) (n1 : nat) (rows : list (list N))
    | VString (cs : list N)
    | VComplex (dbl : bool) (re im : N) | VComplexes (dbl : bool) (vs : list (N * N))
    | VObject (w n : nat) (v : list N) | VObjects (w n : nat) (vs : list (list N)).
    Inductive vtype :=
    | YScalar (t : cty) | YArray (t : cty) | YArray2 (t : cty) | YString | YComplex (dbl : bool) | YComplexes (dbl : bool)
    | YObject (w n : nat) | YObjects (w n : nat).
    Definition width (dbl : bool) : nat := if dbl then 8 else 4.
    (** lib/qdp_hdf5.cc:1982, 2002, 2023, 2043. *)
    Definition complex_name (dbl : bool) : string := if dbl then ".ComplexDouble" else ".ComplexFloat".
    (** The write functions of HDF5Writer: lib/qdp_hdf5.cc:1845-1967 (numbers, arrays, strings), 1976-2057
        (complex numbers), include/qdp_hdf5.h:1327-1351 (others). *)
    Definition put (v : value) (s : string) (trunc : bool) (x : st) : out st :=
      match v with
      | VScalar t v => write KScalar s (data_scalar t v) trunc x
      | VArray t vs => write KArray s (data_array t vs) trunc x
      | VArray2 t n1 rows => write KArray s (data_array2 t (length rows) n1 (fun i j => nth j (nth i rows []) 0%N)) trunc x
      | VString cs => write KString s (data_string cs) trunc x
      | VComplex b re im => write_typed KScalar (complex_name b) (complex_t (width b)) s [] [[re; im]] trunc x
      | VComplexes b vs => write_typed KArray (complex_name b) (complex_t (width b)) s [length vs] (map (fun c => [fst c; snd c]) vs) trunc x
      | VObject w n v => write_oscalar s w n v trunc x
      | VObjects w n vs => write_oscalars s w n vs trunc x
      end.
    (** The read functions of HDF5: lib/qdp_hdf5.cc:526-646 (numbers, arrays, strings), 676-763 (complex
        numbers), include/qdp_hdf5.h:564-641 (others).  [old]: the number before. *)
    Definition word_of (l : list N) (i : nat) : N := nth i l 0%N.
    Definition get (old : N * N) (y : vtype) (s : string) (x : st) : res value :=
      match y with
      | YScalar t => bind (rd t [fst old] s x) (fun l => Val (VScalar t (word_of l 0)))
      | YArray t => bind (rd_array t s x) (fun ls => Val (VArray t (map (fun l => word_of l 0) ls)))
      | YArray2 t => bind (rd_array2 t s x) (fun r => let '(n2, n1, f) := r in
                     Val (VArray2 t n1 (map (fun i => map (fun j => word_of (f i j) 0) (seq 0 n1)) (seq 0 n2))))
      | YString => bind (rd_string s x) (fun cs => Val (VString cs))
      | YComplex b => bind (rd_complex (width b) [fst old; snd old] s x) (fun l => Val (VComplex b (word_of l 0) (word_of l 1)))
      | YComplexes b => bind (rd_complexes (width b) s x) (fun ls => Val (VComplexes b (map (fun l => (word_of l 0, word_of l 1)) ls)))
      | YObject w n => bind (rd_oscalar s w n x) (fun v => Val (VObject w n v))
      | YObjects w n => bind (rd_oscalars s w n x) (fun vs => Val (VObjects w n vs))
      end.
    (** writeAttribute and readAttribute: lib/qdp_hdf5.cc:1738-1838, 430-519. *)
    Definition put_att (v : value) (s a : string) (trunc : bool) (x : st) : out st :=
      match v with
      | VScalar t v => write_att false s a (data_scalar t v) trunc x
      | VArray t vs => write_att true s a (data_array t vs) trunc x
      | VString cs => write_att true s a (data_string cs) trunc x
      | _ => UB                                                            (* no such functions *)
      end.
    Definition get_att (old : N * N) (y : vtype) (s a : string) (x : st) : res value :=
      match y with
      | YScalar t => bind (rd_att t [fst old] s a x) (fun l => Val (VScalar t (word_of l 0)))
      | YArray t => bind (rd_att_array t s a x) (fun ls => Val (VArray t (map (fun l => word_of l 0) ls)))
      | YString => bind (rd_att_string s a x) (fun cs => Val (VString cs))
      | _ => Undef
      end.
  End Scalars.
End Dir.

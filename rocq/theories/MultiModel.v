(** Model of the array containers of include/qdp_multi.h.

    Sizes and indices are natural numbers: negative sizes and int overflow of the number of
    elements are not modelled. *)
From Coq Require Import List Arith Bool.
From Verif Require Import Base.
Import ListNotations.

(** ** Element offsets *)

(** multi2d: operator()(j,i), 709-712; slice(j), 706, and operator[](j), 715-718 as offsets from F. *)
Definition at2 (n1 j i : nat) : nat := i + n1 * j.
Definition slice2 (n1 j : nat) : nat := n1 * j.
Definition sub2 (n1 j : nat) : nat := j * n1.
(** multi3d, 805-817. *)
Definition at3 (n2 n1 k j i : nat) : nat := i + n1 * (j + n2 * k).
Definition slice3 (n2 n1 k j : nat) : nat := n1 * (j + n2 * k).
Definition sub3 (n2 n1 k : nat) : nat := n1 * n2 * k.
(** multi4d, 900-912. *)
Definition at4 (n3 n2 n1 l k j i : nat) : nat := i + n1 * (j + n2 * (k + n3 * l)).
Definition slice4 (n3 n2 n1 l k j : nat) : nat := n1 * (j + n2 * (k + n3 * l)).
Definition sub4 (n3 n2 n1 l : nat) : nat := n1 * n2 * n3 * l.
(** multi5d, 997-1009. *)
Definition at5 (n4 n3 n2 n1 m l k j i : nat) : nat := i + n1 * (j + n2 * (k + n3 * (l + n4 * m))).
Definition slice5 (n4 n3 n2 n1 m l k j : nat) : nat := n1 * (j + n2 * (k + n3 * (l + n4 * m))).
Definition sub5 (n4 n3 n2 n1 m : nat) : nat := n1 * n2 * n3 * n4 * m.

(** The field sz of the classes, for the sizes listed slowest first: 665, 763, 862, 958. *)
Definition elements (dims : list nat) : nat := fold_right (fun n s => s * n) 1 dims.

(** a[m][l]... with the sizes listed slowest first: each operator[] makes a view of the sub-array. *)
Definition sub_offset (dims : list nat) (j : nat) : nat :=
  match dims with
  | [n2; n1] => sub2 n1 j
  | [n3; n2; n1] => sub3 n2 n1 j
  | [n4; n3; n2; n1] => sub4 n3 n2 n1 j
  | [n5; n4; n3; n2; n1] => sub5 n4 n3 n2 n1 j
  | _ => j (* multi1d: F[i], 228-237 *)
  end.
Fixpoint bracket_offset (dims ix : list nat) : nat :=
  match dims, ix with
  | _ :: rest, j :: js => sub_offset dims j + bracket_offset rest js
  | _, _ => 0
  end.
(** a(m,l,...). *)
Definition call_offset (dims ix : list nat) : nat :=
  match dims, ix with
  | [n1], [i] => i
  | [n2; n1], [j; i] => at2 n1 j i
  | [n3; n2; n1], [k; j; i] => at3 n2 n1 k j i
  | [n4; n3; n2; n1], [l; k; j; i] => at4 n3 n2 n1 l k j i
  | [n5; n4; n3; n2; n1], [m; l; k; j; i] => at5 n4 n3 n2 n1 m l k j i
  | _, _ => 0
  end.
(** a.slice(m,l,...), the address of the row selected by all indices but the last. *)
Definition slice_offset (dims ix : list nat) : nat :=
  match dims, ix with
  | [n2; n1], [j] => slice2 n1 j
  | [n3; n2; n1], [k; j] => slice3 n2 n1 k j
  | [n4; n3; n2; n1], [l; k; j] => slice4 n3 n2 n1 l k j
  | [n5; n4; n3; n2; n1], [m; l; k; j] => slice5 n4 n3 n2 n1 m l k j
  | _, _ => 0
  end.

(** multiNd: operator()(i), (j,i), (k,j,i), (l,k,j,i), 1098-1191; the rank is checked. *)
Definition nd_call (nz ix : list nat) : res nat :=
  match ix with
  | [i] => match nz with [_] => Val i | _ => Abort end
  | [j; i] => match nz with [n0; _] => Val (i + n0 * j) | _ => Abort end
  | [k; j; i] => match nz with [n0; n1; _] => Val (i + n0 * (j + n1 * k)) | _ => Abort end
  | [l; k; j; i] => match nz with [n0; n1; n2; _] => Val (i + n0 * (j + n1 * (k + n2 * l))) | _ => Abort end
  | _ => Abort
  end.
(** operator[](ind), 1194-1223: ind[0] of an empty array is read outside of it. *)
Definition nd_packed (nz ind : list nat) : res nat :=
  if negb (length ind =? length nz) then Abort
  else match ind, nz with
       | i0 :: is, _ :: ns => Val (fold_left (fun off p => off * fst p + snd p) (combine ns is) i0)
       | _, _ => Undef
       end.
(** getElem(off), 1227-1249. *)
Definition nd_getElem (sz off : nat) : res nat := if sz <=? off then Abort else Val off.
(** The field sz after resize, 1042-1048. *)
Definition nd_elements (nz : list nat) : res nat :=
  match nz with n0 :: ns => Val (fold_left Nat.mul ns n0) | [] => Undef end.

(** ** Comparison of multi1d, 305-372

    The loops compare the elements at equal positions below the smaller size. *)
Section Compare.
  Context {T : Type}.
  Variables (teq tlt tgt : T -> T -> bool).
  (** "n2[i] != n1[i]" *)
  Definition marr_eq (a b : list T) : bool :=
    if (length a =? 0) || negb (length a =? length b) then false
    else forallb (fun p => teq (snd p) (fst p)) (combine a b).
  Definition marr_ne (a b : list T) : bool := negb (marr_eq a b).
  Definition marr_lt (a b : list T) : bool :=
    match find (fun p => negb (teq (fst p) (snd p))) (combine a b) with
    | Some (x, y) => tlt x y
    | None => if length a =? length b then false else length a <? length b
    end.
  Definition marr_gt (a b : list T) : bool :=
    match find (fun p => negb (teq (fst p) (snd p))) (combine a b) with
    | Some (x, y) => tgt x y
    | None => if length a =? length b then false else length b <? length a
    end.
  Definition marr_le (a b : list T) : bool := marr_lt a b || marr_eq a b.
  Definition marr_ge (a b : list T) : bool := marr_gt a b || marr_eq a b.
End Compare.
(** concat, 291-303, for T = int (it does not compile for other types). *)
Definition set_nth {A} (n : nat) (a : A) (l : list A) : list A := firstn n l ++ a :: skipn (S n) l.
Definition marr_concat {T} (d : T) (l r : list T) : list T :=
  let put p x := (set_nth (snd p) x (fst p), S (snd p)) in
  fst (fold_left put r (fold_left put l (repeat d (length l + length r), 0))).

(** ** The containers in memory *)

(** A pointer into an array made by new[]: the number of the array and an index.  A null
    pointer is None. *)
Definition ptr := option (nat * nat).

(** multi1d to multi5d: [a_dims] are the sizes, slowest first; sz is their product. *)
Record arr := mkArr { a_copymem : bool; a_dims : list nat; a_F : ptr }.

Section Memory.
  Context {T : Type}.
  (** The contents of a new element: None (undetermined) for built-in types, otherwise
      what the default constructor of T gives. *)
  Variable dflt : option T.

  (** The arrays made by new[] so far; None after delete[]. *)
  Definition heap := list (option (list (option T))).

  Definition new_array (n : nat) (h : heap) : ptr * heap := (Some (length h, 0), h ++ [Some (repeat dflt n)]).
  Definition delete_array (p : ptr) (h : heap) : res heap :=
    match p with
    | None => Val h
    | Some (b, 0) => match nth_error h b with Some (Some _) => Val (set_nth b None h) | _ => Undef end
    | Some (b, S _) => Undef
    end.
  (** p[i]; a value may be undetermined, an address may not. *)
  Definition load (p : ptr) (i : nat) (h : heap) : res (option T) :=
    match p with
    | None => Undef
    | Some (b, o) => match nth_error h b with
                     | Some (Some l) => of_option (nth_error l (o + i))
                     | _ => Undef
                     end
    end.
  Definition store (p : ptr) (i : nat) (v : option T) (h : heap) : res heap :=
    match p with
    | None => Undef
    | Some (b, o) => match nth_error h b with
                     | Some (Some l) => if o + i <? length l then Val (set_nth b (Some (set_nth (o + i) v l)) h) else Undef
                     | _ => Undef
                     end
    end.
  (** for(int i=from; i < from+n; ++i) body(i) *)
  Fixpoint for_loop (n from : nat) (body : nat -> heap -> res heap) (h : heap) : res heap :=
    match n with 0 => Val h | S n' => bind (body from h) (for_loop n' (S from) body) end.

  (** multi1d::resize, 256-268; multi2d, 657-670; multi3d, 750-767; multi4d, 849-866;
      multi5d, 945-962.  new never fails. *)
  Definition resize (dims : list nat) (a : arr) (h : heap) : res (arr * heap) :=
    if a_copymem a then Abort
    else bind (delete_array (a_F a) h) (fun h =>
         let '(p, h) := new_array (elements dims) h in Val (mkArr false dims p, h)).

  (** Default constructors, 28, 642, 735, 834, 930. *)
  Definition ctor_default (rank : nat) : arr := mkArr false (repeat 0 rank) None.
  (** Constructors with sizes, 34, 644, 737, 836.  The one of multi5d, 932, takes four sizes and
      does not compile when used. *)
  Definition ctor_sizes (dims : list nat) (h : heap) : res (arr * heap) := resize dims (mkArr false [] None) h.
  (** Placement constructors, 31, 643, 736, 835, 931. *)
  Definition ctor_view (p : ptr) (dims : list nat) : arr := mkArr true dims p.
  (** Destructors, 36-41, 645, 738, 837, 933. *)
  Definition dtor (a : arr) (h : heap) : res heap := if a_copymem a then Val h else delete_array (a_F a) h.

  (** F[i] = s.F[i] for all i < sz *)
  Definition copy_elements (a s : arr) (h : heap) : res heap :=
    for_loop (elements (a_dims a)) 0
             (fun i h => bind (load (a_F s) i h) (fun v => store (a_F a) i v h)) h.
  (** Copy constructors, 46-52, 648-654, 741-747, 840-846, 936-942. *)
  Definition ctor_copy (s : arr) (h : heap) : res (arr * heap) :=
    bind (resize (a_dims s) (mkArr false (a_dims s) None) h) (fun '(a, h) =>
    bind (copy_elements a s h) (fun h => Val (a, h))).
  (** multi1d::operator=, 65-73. *)
  Definition assign1 (a s : arr) (h : heap) : res (arr * heap) :=
    bind (if elements (a_dims a) =? elements (a_dims s) then Val (a, h) else resize (a_dims s) a h) (fun '(a, h) =>
    bind (copy_elements a s h) (fun h => Val (a, h))).
  (** operator= of multi2d to multi5d, 681-688, 780-787, 875-882, 972-979.  [self]: the operand is
      the object itself, so that its F changes with it. *)
  Definition assignN (self : bool) (a s : arr) (h : heap) : res (arr * heap) :=
    bind (resize (a_dims s) a h) (fun '(a, h) =>
    bind (copy_elements a (if self then a else s) h) (fun h => Val (a, h))).
  Definition assign (self : bool) (a s : arr) (h : heap) : res (arr * heap) :=
    match a_dims s with
    | [_] => assign1 a s h
    | _ => assignN self a s h
    end.

  (** A scalar operand "const T& s1": a temporary, or an element somewhere in memory, which is
      read anew in every turn of the loop. *)
  Inductive operand := Temp (v : T) | Elem (p : ptr) (i : nat).
  Definition read_operand (s : operand) (h : heap) : res (option T) :=
    match s with Temp v => Val (Some v) | Elem p i => load p i h end.

  Definition null (a : arr) : bool := match a_F a with None => true | Some _ => false end.

  (** operator=(const T1&), 77-88, 692-703, 791-802, 886-897, 983-994. *)
  Definition fill (s : operand) (a : arr) (h : heap) : res heap :=
    if null a then Abort
    else for_loop (elements (a_dims a)) 0
                  (fun i h => bind (read_operand s h) (fun v => store (a_F a) i v h)) h.

  Definition lift2 (f : T -> T -> T) (x y : option T) : option T :=
    match x, y with Some x, Some y => Some (f x y) | _, _ => None end.
  (** multi1d: operator+=, -=, *=, /= with an array, 106-117, 136-147, 166-177, 196-207. *)
  Definition op_array (f : T -> T -> T) (a s : arr) (h : heap) : res heap :=
    if negb (elements (a_dims a) =? elements (a_dims s)) then Abort
    else for_loop (elements (a_dims a)) 0
                  (fun i h => bind (load (a_F a) i h) (fun x => bind (load (a_F s) i h) (fun y =>
                              store (a_F a) i (lift2 f x y) h))) h.
  (** and with a scalar, 121-132, 151-162, 181-192, 211-222. *)
  Definition op_scalar (f : T -> T -> T) (s : operand) (a : arr) (h : heap) : res heap :=
    if null a then Abort
    else for_loop (elements (a_dims a)) 0
                  (fun i h => bind (load (a_F a) i h) (fun x => bind (read_operand s h) (fun y =>
                              store (a_F a) i (lift2 f x y) h))) h.

  Definition shift_ptr (p : ptr) (n : nat) : ptr := option_map (fun q => (fst q, snd q + n)) p.
  (** operator[] of multi2d to multi5d, 715-718, 814-817, 909-912, 1006-1009: a view. *)
  Definition sub_array (a : arr) (j : nat) : arr :=
    ctor_view (shift_ptr (a_F a) (sub_offset (a_dims a) j)) (tl (a_dims a)).
  (** a[j] = s *)
  Definition assign_row (a : arr) (j : nat) (s : arr) (h : heap) : res heap :=
    bind (assign false (sub_array a j) s h) (fun '(_, h) => Val h).

  (** multi1d operator+ etc. of two arrays, 379-416, and of array and scalar, 419-476, 489-496: a copy,
      then the compound operation on it.  (scalar - Array, 441, needs a unary minus that does not exist.) *)
  Definition binary_array (f : T -> T -> T) (a b : arr) (h : heap) : res (arr * heap) :=
    bind (ctor_copy a h) (fun '(c, h) => bind (op_array f c b h) (fun h => Val (c, h))).
  Definition binary_scalar (f : T -> T -> T) (a : arr) (s : operand) (h : heap) : res (arr * heap) :=
    bind (ctor_copy a h) (fun '(c, h) => bind (op_scalar f s c h) (fun h => Val (c, h))).
  (** scalar / Array, 478-487 *)
  Definition scalar_div (f : T -> T -> T) (s : operand) (a : arr) (h : heap) : res (arr * heap) :=
    bind (ctor_sizes (a_dims a) h) (fun '(c, h) =>
    bind (fill s c h) (fun h =>
    bind (op_array f c a h) (fun h => Val (c, h)))).
  (** norm2, 623-632: the first element is read without a test. *)
  Definition norm2 (add mul : T -> T -> T) (a : arr) (h : heap) : res (option T) :=
    bind (load (a_F a) 0 h) (fun x =>
    (fix go (n i : nat) (nn : option T) : res (option T) :=
       match n with
       | 0 => Val nn
       | S n' => bind (load (a_F a) i h) (fun x => go n' (S i) (lift2 add nn (lift2 mul x x)))
       end) (elements (a_dims a) - 1) 1 (lift2 mul x x)).

  (** *** multiNd, 1024-1095

      [nd_nz] is the array of sizes ([] after the default constructor, which leaves sz undetermined). *)
  Record ndarr := mkNd { nd_nz : list nat; nd_sz : option nat; nd_F : ptr }.
  Definition nd_default : ndarr := mkNd [] None None.
  (** resize, 1042-1059: "sz = nz[0]". *)
  Definition nd_resize (nz : list nat) (a : ndarr) (h : heap) : res (ndarr * heap) :=
    bind (delete_array (nd_F a) h) (fun h =>
    bind (nd_elements nz) (fun sz =>
    let '(p, h) := new_array sz h in Val (mkNd nz (Some sz) p, h))).
  Definition nd_copy_elements (a s : ndarr) (h : heap) : res heap :=
    bind (of_option (nd_sz a)) (fun sz =>
    for_loop sz 0 (fun i h => bind (load (nd_F s) i h) (fun v => store (nd_F a) i v h)) h).
  (** Copy constructor, 1033-1039, and operator=, 1073-1080. *)
  Definition nd_copy (s : ndarr) (h : heap) : res (ndarr * heap) :=
    bind (nd_resize (nd_nz s) (mkNd (nd_nz s) (nd_sz s) None) h) (fun '(a, h) =>
    bind (nd_copy_elements a s h) (fun h => Val (a, h))).
  Definition nd_assign (self : bool) (a s : ndarr) (h : heap) : res (ndarr * heap) :=
    bind (nd_resize (nd_nz s) a h) (fun '(a, h) =>
    bind (nd_copy_elements a (if self then a else s) h) (fun h => Val (a, h))).

  (** ** Programs that use arrays held in variables *)

  Inductive scalar := Const (v : T) | ElemOf (y : nat) (ix : list nat).
  Inductive stmt :=
  | SDefault (x rank : nat)          (* multiRd<T> x; *)
  | SSizes (x : nat) (dims : list nat)  (* multiRd<T> x(n..); *)
  | SCopy (x y : nat)                (* multiRd<T> x(y); *)
  | SResize (x : nat) (dims : list nat) (* x.resize(n..); *)
  | SAssign (x y : nat)              (* x = y; *)
  | SFill (x : nat) (s : scalar)     (* x = s; *)
  | SSet (x : nat) (ix : list nat) (v : T)  (* x(..) = v; *)
  | SOp (f : T -> T -> T) (x y : nat)       (* x += y; etc. (multi1d) *)
  | SOpScalar (f : T -> T -> T) (x : nat) (s : scalar) (* x += s; etc. (multi1d) *)
  | SRow (x j y : nat)               (* x[j] = y; *)
  | SBinary (f : T -> T -> T) (x y z : nat)  (* multi1d<T> x = y + z; etc. *)
  | SBinaryScalar (f : T -> T -> T) (x y : nat) (s : scalar) (* multi1d<T> x = y + s; etc. *)
  | SScalarOver (f : T -> T -> T) (x : nat) (s : scalar) (y : nat) (* multi1d<T> x = s / y; *)
  | SEnd (x : nat).                  (* x goes out of scope *)

  Record state := mkState { vars : nat -> option arr; mem : heap }.
  Definition empty_state : state := mkState (fun _ => None) [].
  Definition set_var {A} (x : nat) (a : A) (f : nat -> A) : nat -> A := fun y => if y =? x then a else f y.
  Definition get_operand (s : scalar) (st : state) : res operand :=
    match s with
    | Const v => Val (Temp v)
    | ElemOf y ix => bind (of_option (vars st y)) (fun a => Val (Elem (a_F a) (call_offset (a_dims a) ix)))
    end.

  Definition exec (c : stmt) (st : state) : res state :=
    let '(mkState vs h) := st in
    match c with
    | SDefault x rank => Val (mkState (set_var x (Some (ctor_default rank)) vs) h)
    | SSizes x dims => bind (ctor_sizes dims h) (fun '(a, h) => Val (mkState (set_var x (Some a) vs) h))
    | SCopy x y => bind (of_option (vs y)) (fun s =>
                   bind (ctor_copy s h) (fun '(a, h) => Val (mkState (set_var x (Some a) vs) h)))
    | SResize x dims => bind (of_option (vs x)) (fun a =>
                        bind (resize dims a h) (fun '(a, h) => Val (mkState (set_var x (Some a) vs) h)))
    | SAssign x y => bind (of_option (vs x)) (fun a => bind (of_option (vs y)) (fun s =>
                     bind (assign (x =? y) a s h) (fun '(a, h) => Val (mkState (set_var x (Some a) vs) h))))
    | SFill x s => bind (of_option (vs x)) (fun a => bind (get_operand s st) (fun s =>
                   bind (fill s a h) (fun h => Val (mkState vs h))))
    | SSet x ix v => bind (of_option (vs x)) (fun a =>
                     bind (store (a_F a) (call_offset (a_dims a) ix) (Some v) h) (fun h => Val (mkState vs h)))
    | SOp f x y => bind (of_option (vs x)) (fun a => bind (of_option (vs y)) (fun s =>
                   bind (op_array f a s h) (fun h => Val (mkState vs h))))
    | SOpScalar f x s => bind (of_option (vs x)) (fun a => bind (get_operand s st) (fun s =>
                         bind (op_scalar f s a h) (fun h => Val (mkState vs h))))
    | SRow x j y => bind (of_option (vs x)) (fun a => bind (of_option (vs y)) (fun s =>
                    bind (assign_row a j s h) (fun h => Val (mkState vs h))))
    | SBinary f x y z => bind (of_option (vs y)) (fun a => bind (of_option (vs z)) (fun b =>
                         bind (binary_array f a b h) (fun '(c, h) => Val (mkState (set_var x (Some c) vs) h))))
    | SBinaryScalar f x y s => bind (of_option (vs y)) (fun a => bind (get_operand s st) (fun s =>
                               bind (binary_scalar f a s h) (fun '(c, h) => Val (mkState (set_var x (Some c) vs) h))))
    | SScalarOver f x s y => bind (of_option (vs y)) (fun a => bind (get_operand s st) (fun s =>
                             bind (scalar_div f s a h) (fun '(c, h) => Val (mkState (set_var x (Some c) vs) h))))
    | SEnd x => bind (of_option (vs x)) (fun a =>
                bind (dtor a h) (fun h => Val (mkState (set_var x None vs) h)))
    end.
  Fixpoint exec_all (p : list stmt) (st : state) : res state :=
    match p with [] => Val st | c :: p => bind (exec c st) (exec_all p) end.

  (** The element x(..) as a program reads it. *)
  Definition read_elem (x : nat) (ix : list nat) (st : state) : res (option T) :=
    bind (of_option (vars st x)) (fun a => load (a_F a) (call_offset (a_dims a) ix) (mem st)).
End Memory.
Arguments heap T : clear implicits.
Arguments state T : clear implicits.
Arguments stmt T : clear implicits.
Arguments operand T : clear implicits.
Arguments scalar T : clear implicits.

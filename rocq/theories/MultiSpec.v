(** What a user expects of the array containers, stated without reference to their memory. *)
From Coq Require Import List Arith Bool.
From Verif Require Import Base MultiModel.
Import ListNotations.

(** ** Index tuples *)

(** The tuple [ix] is inside an array with sizes [dims]. *)
Definition in_range (dims ix : list nat) : Prop := Forall2 lt ix dims.
Definition volume (dims : list nat) : nat := fold_right Nat.mul 1 dims.
(** The ranks for which there is a class. *)
Definition rank_ok (dims : list nat) : Prop := 1 <= length dims <= 5.
(** Lexicographic order: the last index varies fastest. *)
Inductive before : list nat -> list nat -> Prop :=
| before_here i j is js : i < j -> before (i :: is) (j :: js)
| before_later i is js : before is js -> before (i :: is) (i :: js).

(** ** Dictionary order *)
Inductive lex {T} (lt : T -> T -> Prop) : list T -> list T -> Prop :=
| lex_nil y b : lex lt [] (y :: b)
| lex_head x y a b : lt x y -> lex lt (x :: a) (y :: b)
| lex_tail x a b : lex lt a b -> lex lt (x :: a) (x :: b).

(** The element type has an equality test and a strict total order. *)
Record total_order {T} (teq tlt tgt : T -> T -> bool) : Prop := {
  to_eq : forall x y, teq x y = true <-> x = y;
  to_gt : forall x y, tgt x y = tlt y x;
  to_irrefl : forall x, tlt x x = false;
  to_trans : forall x y z, tlt x y = true -> tlt y z = true -> tlt x z = true;
  to_total : forall x y, x <> y -> tlt x y = true \/ tlt y x = true }.

(** ** Arrays as values *)
Section Values.
  Context {T : Type}.
  Variable dflt : option T.

  (** Sizes, and the element for every index tuple in range.  [v_alloc]: the array owns memory
      (a default-constructed one does not). *)
  Record avalue := mkV { v_alloc : bool; v_dims : list nat; v_elem : list nat -> option T }.
  Definition vstate := nat -> option avalue.

  Fixpoint same_list (a b : list nat) : bool :=
    match a, b with
    | [], [] => true
    | x :: a, y :: b => (x =? y) && same_list a b
    | _, _ => false
    end.
  Fixpoint in_rangeb (dims ix : list nat) : bool :=
    match dims, ix with
    | [], [] => true
    | n :: dims, i :: ix => (i <? n) && in_rangeb dims ix
    | _, _ => false
    end.
  Definition rank_okb (dims : list nat) : bool := (1 <=? length dims) && (length dims <=? 5).

  Definition upd (x : nat) (v : option avalue) (s : vstate) : vstate := fun y => if y =? x then v else s y.
  (** A declaration needs a new name, any other use an existing one. *)
  Definition declare (x : nat) (v : avalue) (s : vstate) : res vstate :=
    match s x with None => Val (upd x (Some v) s) | Some _ => Undef end.
  Definition scalar_value (sc : scalar T) (s : vstate) : res (option T) :=
    match sc with
    | Const v => Val (Some v)
    | ElemOf y ix => bind (of_option (s y)) (fun v =>
                     if in_rangeb (v_dims v) ix then Val (v_elem v ix) else Undef)
    end.
  Definition both (f : T -> T -> T) (x y : option T) : option T :=
    match x, y with Some x, Some y => Some (f x y) | _, _ => None end.

  (** The meaning of a statement: Abort where the documentation promises an error exit, Undef where
      the program is wrong (unknown name, index out of range, different rank). *)
  Definition meaning (c : stmt T) (s : vstate) : res vstate :=
    match c with
    | SDefault x rank =>
        if rank_okb (repeat 0 rank) then declare x (mkV false (repeat 0 rank) (fun _ => dflt)) s else Undef
    | SSizes x dims => if rank_okb dims then declare x (mkV true dims (fun _ => dflt)) s else Undef
    | SCopy x y => bind (of_option (s y)) (fun v => declare x (mkV true (v_dims v) (v_elem v)) s)
    | SResize x dims => bind (of_option (s x)) (fun v =>
        if length dims =? length (v_dims v) then Val (upd x (Some (mkV true dims (fun _ => dflt))) s) else Undef)
    | SAssign x y => bind (of_option (s x)) (fun v => bind (of_option (s y)) (fun w =>
        if length (v_dims v) =? length (v_dims w)
        then Val (upd x (Some (mkV (if length (v_dims v) =? 1 then (if same_list (v_dims v) (v_dims w) then v_alloc v else true)
                                    else true) (v_dims w) (v_elem w))) s)
        else Undef))
    | SFill x sc => bind (of_option (s x)) (fun v => bind (scalar_value sc s) (fun e =>
        if v_alloc v then Val (upd x (Some (mkV true (v_dims v) (fun _ => e))) s) else Abort))
    | SSet x ix e => bind (of_option (s x)) (fun v =>
        if in_rangeb (v_dims v) ix
        then Val (upd x (Some (mkV (v_alloc v) (v_dims v) (fun ix' => if same_list ix' ix then Some e else v_elem v ix'))) s)
        else Undef)
    | SOp f x y => bind (of_option (s x)) (fun v => bind (of_option (s y)) (fun w =>
        if (length (v_dims v) =? 1) && (length (v_dims w) =? 1)
        then if same_list (v_dims v) (v_dims w)
             then Val (upd x (Some (mkV (v_alloc v) (v_dims v) (fun ix => both f (v_elem v ix) (v_elem w ix)))) s)
             else Abort
        else Undef))
    | SOpScalar f x sc => bind (of_option (s x)) (fun v => bind (scalar_value sc s) (fun e =>
        if length (v_dims v) =? 1
        then if v_alloc v then Val (upd x (Some (mkV true (v_dims v) (fun ix => both f (v_elem v ix) e))) s) else Abort
        else Undef))
    | SRow x j y => bind (of_option (s x)) (fun v => bind (of_option (s y)) (fun w =>
        if (length (v_dims v) =? S (length (v_dims w))) && (j <? hd 0 (v_dims v))
        then if same_list (tl (v_dims v)) (v_dims w)
             then Val (upd x (Some (mkV (v_alloc v) (v_dims v)
                         (fun ix => if hd 0 ix =? j then v_elem w (tl ix) else v_elem v ix))) s)
             else Abort
        else Undef))
    | SBinary f x y z => bind (of_option (s y)) (fun v => bind (of_option (s z)) (fun w =>
        if (length (v_dims v) =? 1) && (length (v_dims w) =? 1)
        then bind (declare x (mkV true (v_dims v) (fun ix => both f (v_elem v ix) (v_elem w ix))) s) (fun s' =>
             if same_list (v_dims v) (v_dims w) then Val s' else Abort)
        else Undef))
    | SBinaryScalar f x y sc => bind (of_option (s y)) (fun v => bind (scalar_value sc s) (fun e =>
        if length (v_dims v) =? 1
        then declare x (mkV true (v_dims v) (fun ix => both f (v_elem v ix) e)) s else Undef))
    | SScalarOver f x sc y => bind (of_option (s y)) (fun v => bind (scalar_value sc s) (fun e =>
        if length (v_dims v) =? 1
        then declare x (mkV true (v_dims v) (fun ix => both f e (v_elem v ix))) s else Undef))
    | SEnd x => bind (of_option (s x)) (fun _ => Val (upd x None s))
    end.
  Fixpoint meaning_all (p : list (stmt T)) (s : vstate) : res vstate :=
    match p with [] => Val s | c :: p => bind (meaning c s) (meaning_all p) end.
  Definition no_arrays : vstate := fun _ => None.

  (** The statements the code gets wrong: an array of rank 2 or more assigned to itself, a scalar operand that is
      an element of the array being changed, and assignment to a part of an array of rank 3 or more. *)
  Definition sound_stmt (c : stmt T) (s : vstate) : Prop :=
    match c with
    | SAssign x y => x = y -> forall v, s x = Some v -> length (v_dims v) = 1
    | SOpScalar _ x (ElemOf y _) => x <> y
    | SRow x _ _ => forall v, s x = Some v -> length (v_dims v) = 2
    | _ => True
    end.
  Fixpoint sound (p : list (stmt T)) (s : vstate) : Prop :=
    match p with
    | [] => True
    | c :: p => sound_stmt c s /\ match meaning c s with Val s' => sound p s' | _ => True end
    end.

  (** A program state shows the values [s]. *)
  Definition shows (st : state T) (s : vstate) : Prop :=
    forall x, match vars st x, s x with
              | None, None => True
              | Some a, Some v =>
                  a_dims a = v_dims v /\
                  forall ix, in_range (v_dims v) ix -> read_elem x ix st = Val (v_elem v ix)
              | _, _ => False
              end.
End Values.

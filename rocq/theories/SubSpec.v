(** What sub-lattice variables mean, without memory: a lattice is a function from sites to
    values, [a[s]] is another name for the sites [s] of [a], and a sub-lattice with memory of
    its own is a value: one element for every site of its subset. *)
From Coq Require Import List Arith Bool.
From Verif Require Import Base SubModel.
Import ListNotations.
Local Open Scope nat_scope.

Section SubSpec.
  Context {T : Type}.

  (** Values at sites; [None]: no value yet. *)
  Definition field := nat -> cell T.
  Inductive var :=
  | Empty
  | Alias (l : nat) (ss : list nat)
  | Own (ss : list nat) (f : field).
  Record vars := { lattices : list (option field); subs : list (option var) }.

  Definition mem_of (i : nat) (ss : list nat) : bool := existsb (Nat.eqb i) ss.
  Definition nothing : field := fun _ => None.

  (** [f] with the sites of [ss] replaced by the values of [g]. *)
  Definition overlay (ss : list nat) (g f : field) : field :=
    fun i => if mem_of i ss then g i else f i.

  (** The values of the lattices at site [i]. *)
  Definition seen (a : vars) (i : nat) : list (cell T) :=
    map (fun o => match o with Some f => f i | None => None end) (lattices a).

  (** Every site of [ss] gets the value the assignment computes from the lattices at this site
      and the old value there; all of them must exist. *)
  Definition assigned (a : vars) (ss : list nat) (u : assignment T) (f : field) : res field :=
    let g := fun i => u (seen a i) (f i) in
    if forallb (fun i => match g i with Some _ => true | None => false end) ss
    then Val (overlay ss g f) else Undef.

  (** The j-th site of [ss] gets the value of the j-th site of [rs]. *)
  Definition by_position (ss rs : list nat) (g f : field) : field :=
    fold_left (fun f '(i, k) => fun x => if x =? i then g k else f x) (combine ss rs) f.

  Definition a_lat (a : vars) (l : nat) : res field :=
    match nth_error (lattices a) l with Some (Some f) => Val f | _ => Undef end.
  Definition a_sub (a : vars) (k : nat) : res var :=
    match nth_error (subs a) k with Some (Some x) => Val x | _ => Undef end.
  Definition set_lat (a : vars) (l : nat) (o : option field) : vars :=
    {| lattices := put_at (lattices a) l o; subs := subs a |}.
  Definition set_sub (a : vars) (k : nat) (o : option var) : vars :=
    {| lattices := lattices a; subs := put_at (subs a) k o |}.
  Definition add_sub (a : vars) (x : var) : vars :=
    {| lattices := lattices a; subs := subs a ++ [Some x] |}.

  Definition means (a : vars) (o : op T) : res vars :=
    match o with
    | NewLattice => Val {| lattices := lattices a ++ [Some nothing]; subs := subs a |}
    | DropLattice l => bind (a_lat a l) (fun _ => Val (set_lat a l None))
    | Declare => Val (add_sub a Empty)
    | View l ss => bind (a_lat a l) (fun _ => Val (add_sub a (Alias l ss)))
    | Gather ss l => bind (a_lat a l) (fun f => Val (add_sub a (Own ss f)))
    | Copy k => bind (a_sub a k) (fun x => Val (add_sub a x))
    | SetSubset k ss =>
        bind (a_sub a k) (fun x =>
        match x with
        | Alias _ _ => Abort
        | _ => Val (set_sub a k (Some (Own ss nothing)))
        end)
    | Drop k => bind (a_sub a k) (fun _ => Val (set_sub a k None))
    | Assign k u =>
        bind (a_sub a k) (fun x =>
        match x with
        | Empty => Undef
        | Alias l ss =>
            match ss with
            | [] => Val a
            | _ => bind (a_lat a l) (fun f => bind (assigned a ss u f) (fun f' =>
                   Val (set_lat a l (Some f'))))
            end
        | Own ss f => bind (assigned a ss u f) (fun f' => Val (set_sub a k (Some (Own ss f'))))
        end)
    | AssignSub k r =>
        bind (a_sub a k) (fun x => bind (a_sub a r) (fun y =>
        match x, y with
        | Own ss f, Own rs g =>
            if length ss =? length rs
            then Val (set_sub a k (Some (Own ss (by_position ss rs g f)))) else Abort
        | _, _ => Abort
        end))
    | AssignLattice l k =>
        bind (a_lat a l) (fun f => bind (a_sub a k) (fun x =>
        match x with
        | Own ss g => Val (set_lat a l (Some (overlay ss g f)))
        | _ => Abort
        end))
    | LocalProduct k f l =>
        bind (a_sub a k) (fun x => bind (a_lat a l) (fun g =>
        match x with
        | Own ss h =>
            let p := fun i => match h i, g i with Some x, Some y => Some (f x y) | _, _ => None end in
            if forallb (fun i => match p i with Some _ => true | None => false end) ss
            then Val (add_sub a (Own ss p)) else Undef
        | _ => Abort
        end))
    end.

  Definition start : vars := {| lattices := []; subs := [] |}.
  Fixpoint meaning (a : vars) (ops : list (op T)) : res vars :=
    match ops with
    | [] => Val a
    | o :: ops' => bind (means a o) (fun a' => meaning a' ops')
    end.

  (** A site table of a lattice with [V] sites on this node. *)
  Definition table (V : nat) (ss : list nat) : Prop := NoDup ss /\ forall i, In i ss -> i < V.
  Definition tables (V : nat) (o : op T) : Prop :=
    match o with
    | View _ ss | Gather ss _ | SetSubset _ ss => table V ss
    | _ => True
    end.

  (** The contents of memory are those of the variables.  An alias points at the memory of its
      lattice, an owner's element j is the value at the j-th site of its subset. *)
  Definition shows_lattice (V : nat) (h : heap T) (o : option nat) (x : option field) : Prop :=
    match o, x with
    | None, None => True
    | Some b, Some f => exists l, blocks h b = Some l /\ length l = V /\
                                  forall i, i < V -> nth_error l i = Some (f i)
    | _, _ => False
    end.
  Definition shows_sub (h : heap T) (lats : list (option nat)) (o : option sub)
      (x : option var) : Prop :=
    match o, x with
    | None, None => True
    | Some s, Some Empty => s = default_sub
    | Some s, Some (Alias l ss) =>
        exists b, s = view b ss /\
          (nth_error lats l = Some (Some b) \/
           nth_error lats l = Some None /\ blocks h b = None /\ b < fresh h)
    | Some s, Some (Own ss f) =>
        exists b l, s = {| pF := Some b; owns := true; pS := Some ss |} /\
          blocks h b = Some l /\ length l = length ss /\
          forall j i, nth_error ss j = Some i -> nth_error l j = Some (f i)
    | _, _ => False
    end.
  Definition shows (V : nat) (c : st T) (a : vars) : Prop :=
    Forall2 (shows_lattice V (mem c)) (lat c) (lattices a) /\
    Forall2 (shows_sub (mem c) (lat c)) (obj c) (subs a).

  (** The blocks that belong to a live object: each to exactly one. *)
  Definition lattice_block (o : option nat) : list nat :=
    match o with Some b => [b] | None => [] end.
  Definition sub_block (o : option sub) : list nat :=
    match o with
    | Some s => if owns s then lattice_block (pF s) else []
    | None => []
    end.
  Definition owned (c : st T) : list nat :=
    flat_map lattice_block (lat c) ++ flat_map sub_block (obj c).
  Definition no_leak (c : st T) : Prop :=
    NoDup (owned c) /\ forall b, blocks (mem c) b <> None <-> In b (owned c).

  (** The sum of the values of [f] over the sites [ss]. *)
  Fixpoint total (zero : T) (add : T -> T -> T) (f : nat -> T) (ss : list nat) : T :=
    match ss with
    | [] => zero
    | i :: ss' => add (f i) (total zero add f ss')
    end.
End SubSpec.
Arguments var : clear implicits.
Arguments vars : clear implicits.
Arguments field : clear implicits.

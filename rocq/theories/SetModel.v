(** Model of Set and Subset: lib/qdp_scalarsite_specific.cc (Set::make),
    lib/qdp_subset.cc, include/qdp_subset.h.

    Simplification: int is modelled by [nat] for sites and coordinates and by [Z] for
    colours and start/end; no overflow (volumes below 2^31). *)
From Coq Require Import List Arith ZArith Bool.
From Verif Require Import Base LayoutModel.
Import ListNotations.
Local Open Scope nat_scope.

(** A SetFunc object: numSubsets() and operator(), include/qdp_subset.h:18-30.  The
    operator may abort. *)
Record setfunc := { sf_num : nat; sf_col : list nat -> res Z }.

(** What Set::make stores in one Subset (Subset::make, lib/qdp_subset.cc:130-138) together
    with the contents of the site table it points to. *)
Record subset := { s_ordRep : bool; s_start : Z; s_end : Z; s_table : list nat }.

(** Loop body of Set::make, lib/qdp_scalarsite_specific.cc:80-103: the colour of one site,
    with the three sanity checks.  (The loop is an omp parallel for over independent
    iterations.) *)
Definition site_colour (lay : layout) (node : nat) (f : setfunc) (linear : nat) : res nat :=
  let coord := l_coord lay node linear in
  bind (sf_col f coord) (fun icolor =>
    if negb (l_node lay coord =? node) then Abort
    else if negb (l_lin lay coord =? linear) then Abort
    else if (icolor <? 0)%Z || (Z.of_nat (sf_num f) <=? icolor)%Z then Abort
    else Val (Z.to_nat icolor)).

(** lib/qdp_scalarsite_specific.cc:79-104: lat_color. *)
Definition lat_color (lay : layout) (node : nat) (f : setfunc) : res (list nat) :=
  mapM (site_colour lay node f) (seq 0 (l_sites lay)).

(** lib/qdp_scalarsite_specific.cc:124-130: the counting loop. *)
Definition num_sitetable (col : list nat) (sites cb : nat) : nat :=
  fold_left (fun n linear => if get col linear =? cb then S n else n) (seq 0 sites) 0.

(** lib/qdp_scalarsite_specific.cc:133-150: resize, then fill with a running index [j].
    (The initial value -1 of line 146 is represented by 0.) *)
Definition sitetable (col : list nat) (sites cb : nat) : list nat :=
  snd (fold_left
         (fun jt linear => if get col linear =? cb
                           then (S (fst jt), upd (fst jt) linear (snd jt)) else jt)
         (seq 0 sites) (0, repeat 0 (num_sitetable col sites cb))).

(** lib/qdp_scalarsite_specific.cc:160-161: the scan for a hole; [true] = no hole. *)
Fixpoint no_hole (prev : nat) (t : list nat) : bool :=
  match t with
  | [] => true
  | x :: t' => if negb (x =? prev) then false else no_hole (S prev) t'
  end.

(** lib/qdp_scalarsite_specific.cc:118-184, one iteration of the loop over cb. *)
Definition make_subset (col : list nat) (sites cb : nat) : subset :=
  let t := sitetable col sites cb in
  if 0 <? num_sitetable col sites cb then
    if no_hole (get t 0) t then
      {| s_ordRep := true; s_start := Z.of_nat (get t 0);
         s_end := Z.of_nat (get t (length t - 1)); s_table := t |}
    else {| s_ordRep := false; s_start := -1; s_end := -1; s_table := t |}
  else {| s_ordRep := false; s_start := -1; s_end := -1; s_table := t |}.

(** Set::make, lib/qdp_scalarsite_specific.cc:56-185: the subsets built on [node]. *)
Definition set_make (lay : layout) (node : nat) (f : setfunc) : res (list subset) :=
  bind (lat_color lay node f) (fun col =>
    Val (map (make_subset col (l_sites lay)) (seq 0 (sf_num f)))).

(** ** The predefined colouring functions, lib/qdp_subset.cc *)

(** lib/qdp_subset.cc:35-40 *)
Definition SetAllFunc : setfunc := {| sf_num := 1; sf_col := fun _ => Val 0%Z |}.

(** lib/qdp_subset.cc:44-57 *)
Definition SetRBFunc : setfunc :=
  {| sf_num := 2;
     sf_col := fun c =>
       Val (Z.land (fold_left (fun s m => (s + Z.of_nat (get c m))%Z) (seq 0 (length c)) 0%Z) 1) |}.

(** lib/qdp_subset.cc:60-77 *)
Definition SetRB3Func : setfunc :=
  {| sf_num := 2;
     sf_col := fun c =>
       if length c <? 3 then Abort
       else Val (Z.land (fold_left (fun s m => (s + Z.of_nat (get c m))%Z) (seq 0 3) 0%Z) 1) |}.

(** lib/qdp_subset.cc:81-99; [Nd] is the compile-time number of dimensions. *)
Definition Set32CBFunc (Nd : nat) : setfunc :=
  {| sf_num := Nat.shiftl 1 (Nd + 1);
     sf_col := fun c =>
       let initial_color :=
         fold_left (fun s m => (Z.shiftl s 1 + Z.land (Z.of_nat (get c m)) 1)%Z)
                   (rev (seq 0 Nd)) 0%Z in
       let cb := Z.land (fold_left (fun s m => (s + Z.shiftr (Z.of_nat (get c m)) 1)%Z)
                                   (seq 0 Nd) 0%Z) 1 in
       Val (initial_color + Z.shiftl cb (Z.of_nat Nd))%Z |}.

(** The predefined sets and subsets after initDefaultSets, lib/qdp_subset.cc:103-125. *)
Record default_sets := {
  d_rb : list subset; d_rb3 : list subset; d_mcb : list subset; d_set_all : list subset;
  d_all : subset; d_even : subset; d_odd : subset }.

Definition nth_subset (l : list subset) (i : nat) : res subset := of_option (nth_error l i).

Definition initDefaultSets (lay : layout) (node : nat) : res default_sets :=
  bind (set_make lay node SetRBFunc) (fun rb =>
  bind (set_make lay node SetRB3Func) (fun rb3 =>
  bind (set_make lay node (Set32CBFunc (length (l_size lay)))) (fun mcb =>
  bind (set_make lay node SetAllFunc) (fun set_all =>
  bind (nth_subset set_all 0) (fun all_ =>
  bind (nth_subset rb 0) (fun even_ =>
  bind (nth_subset rb 1) (fun odd_ =>
  Val {| d_rb := rb; d_rb3 := rb3; d_mcb := mcb; d_set_all := set_all;
         d_all := all_; d_even := even_; d_odd := odd_ |}))))))).

(** ** Set objects on the heap

    A Set owns an array of site tables (member [sitetables], heap block of
    multi1d<multi1d<int> >) and an array of Subsets each holding a pointer into such a
    block.  Addresses are never reused; a freed block is [None].  The objects are named by
    numbers.  The tables inside one block are owned by the block, so a block holds a list of
    tables. *)

Record subset_obj := {
  so_ordRep : bool; so_start : Z; so_end : Z;
  so_block : nat;                (* the block the sitetable pointer points into *)
  so_index : nat }.              (* the element of that block *)

Record set_obj := { sub : list subset_obj; tables : nat (* address *); ntables : nat }.

Record heap := {
  next : nat;
  block : nat -> option (list (list nat));
  objs : nat -> option set_obj }.

Definition empty_heap : heap := {| next := 0; block := fun _ => None; objs := fun _ => None |}.

Definition fupd {A} (f : nat -> A) (k : nat) (v : A) : nat -> A :=
  fun i => if i =? k then v else f i.

(** What the program does with Set objects. *)
Inductive set_op :=
| OMake (id : nat) (content : list subset)   (* id.make(fn): [content] is set_make's result *)
| OCopy (id src : nat)                       (* construct id as a copy of src *)
| OAssign (id src : nat)                     (* id = src, id already exists *)
| ODestroy (id : nat).                       (* end of id's life *)

(** Free the table block of an object, if it exists. *)
Definition free_tables (h : heap) (id : nat) : heap :=
  match objs h id with
  | Some o => {| next := next h; block := fupd (block h) (tables o) None; objs := objs h |}
  | None => h
  end.

Definition fill (tab : list (list nat)) (h : heap) : heap :=
  {| next := S (next h); block := fupd (block h) (next h) (Some tab); objs := objs h |}.

Definition set_obj_at (id : nat) (o : option set_obj) (h : heap) : heap :=
  {| next := next h; block := block h; objs := fupd (objs h) id o |}.

(** Subset pointers created by Set::make point into the set's own block
    (lib/qdp_scalarsite_specific.cc:179). *)
Fixpoint make_subs (a i : nat) (l : list subset) : list subset_obj :=
  match l with
  | [] => []
  | s :: l' => {| so_ordRep := s_ordRep s; so_start := s_start s; so_end := s_end s;
                  so_block := a; so_index := i |} :: make_subs a (S i) l'
  end.

(** One operation.  Using an object that does not exist is undefined and not considered:
    the operation is then skipped.
    - OMake: sitetables.resize frees the old block and allocates a new one
      (lib/qdp_scalarsite_specific.cc:74, include/qdp_multi.h:256-268).
    - OCopy: implicit copy constructor, memberwise: multi1d's copy constructor allocates
      (include/qdp_multi.h:46-52), Subset's copy constructor copies the pointer
      (include/qdp_subset.h:43-46).
    - OAssign: Set::operator= (lib/qdp_subset.cc:160-166): memberwise; multi1d's
      operator= reallocates only when the sizes differ (include/qdp_multi.h:65-73), and
      Subset::operator= copies the pointer (lib/qdp_subset.cc:141-156).
    - ODestroy: ~Set destroys the members. *)
Definition set_step (h : heap) (op : set_op) : heap :=
  match op with
  | OMake id content =>
      let h1 := fill (map s_table content) (free_tables h id) in
      set_obj_at id (Some {| sub := make_subs (next h) 0 content; tables := next h;
                             ntables := length content |}) h1
  | OCopy id src =>
      match objs h src, objs h id with
      | Some o, None =>
          match block h (tables o) with
          | Some t => set_obj_at id (Some {| sub := sub o; tables := next h;
                                             ntables := ntables o |}) (fill t h)
          | None => h
          end
      | _, _ => h
      end
  | OAssign id src =>
      match objs h src, objs h id with
      | Some o, Some d =>
          match block h (tables o) with
          | Some t =>
              if ntables d =? ntables o then
                set_obj_at id (Some {| sub := sub o; tables := tables d;
                                       ntables := ntables d |})
                  {| next := next h; block := fupd (block h) (tables d) (Some t);
                     objs := objs h |}
              else
                set_obj_at id (Some {| sub := sub o; tables := next h;
                                       ntables := ntables o |})
                  (fill t (free_tables h id))
          | None => h
          end
      | _, _ => h
      end
  | ODestroy id => set_obj_at id None (free_tables h id)
  end.

Definition set_run (ops : list set_op) (h : heap) : heap := fold_left set_step ops h.

(** set[i] and then hasOrderedRep(), start(), end(), siteTable()
    (include/qdp_subset.h:77-83,107): reading a freed block is undefined. *)
Definition set_read (h : heap) (id i : nat) : res subset :=
  bind (of_option (objs h id)) (fun o =>
  bind (of_option (nth_error (sub o) i)) (fun s =>
  bind (of_option (block h (so_block s))) (fun ts =>
  bind (of_option (nth_error ts (so_index s))) (fun t =>
  Val {| s_ordRep := so_ordRep s; s_start := so_start s; s_end := so_end s;
         s_table := t |})))).

(** Properties C06 - C09 and C56: sets and subsets. *)
From Coq Require Import List Arith ZArith Lia.
From Verif Require Import Base LayoutModel LayoutSpec LayoutProofs LayoutOk SetModel SetSpec SetProofs.
Import ListNotations.
Local Open Scope nat_scope.

(** C06.  Set::make partitions the sites of the node by colour, or aborts if a colour is
    out of range. *)
Theorem C06_set_make_partitions : forall (lay : layout) (node num : nat) (colour : list nat -> Z),
  layout_ok lay -> node < l_nodes lay ->
  let f := {| sf_num := num; sf_col := fun c => Val (colour c) |} in
  let in_range i := (0 <= colour (l_coord lay node i) < Z.of_nat num)%Z in
  ((forall i, i < l_sites lay -> in_range i) ->
     exists ss, set_make lay node f = Val ss /\
                is_partition lay node num colour ss /\ covers_once lay ss) /\
  ((exists i, i < l_sites lay /\ ~ in_range i) -> set_make lay node f = Abort).
Proof. exact C06_all. Qed.
Print Assumptions C06_set_make_partitions.

(** A colouring by the first coordinate, on node 1 of a two-node machine. *)
Example C06_case :
  let lay := par_layout CB2 (lex_machine [2;1;1]) [8;2;1] in
  match set_make lay 1 {| sf_num := 8; sf_col := fun c => Val (Z.of_nat (get c 0)) |} with
  | Val ss => map s_table ss = [[]; []; []; []; [0; 6]; [2; 4]; [1; 7]; [3; 5]]
  | _ => False
  end /\
  set_make lay 1 {| sf_num := 7; sf_col := fun c => Val (Z.of_nat (get c 0)) |} = Abort.
Proof. vm_compute. repeat split. Qed.

(** C07.  The ordered-representation flag, start() and end() describe the table exactly. *)
Theorem C07_flags_exact : forall lay node f ss cb s,
  set_make lay node f = Val ss -> nth_error ss cb = Some s -> flags_exact s.
Proof. exact C07_all. Qed.
Print Assumptions C07_flags_exact.

Example C07_case :
  match set_make (scalar_layout CB2 [4;2;2]) 0 SetRBFunc,
        set_make (scalar_layout LEXICO [4;2;2]) 0 SetRBFunc with
  | Val [e; o], Val [e'; o'] =>
      (s_ordRep o, s_start o, s_end o) = (true, 8, 15)%Z /\ s_ordRep o' = false
  | _, _ => False
  end.
Proof. vm_compute. repeat split. Qed.

(** C08.  The predefined sets have the documented membership; a nearest-neighbour step in a
    direction of even extent exchanges even and odd. *)
Theorem C08_default_sets : forall (lay : layout) (node : nat),
  layout_ok lay -> node < l_nodes lay -> 3 <= length (l_size lay) ->
  exists d, initDefaultSets lay node = Val d /\
    (is_partition lay node 2 rb_colour (d_rb d) /\ covers_once lay (d_rb d)) /\
    (is_partition lay node 2 rb3_colour (d_rb3 d) /\ covers_once lay (d_rb3 d)) /\
    (is_partition lay node (2 ^ (length (l_size lay) + 1)) mcb_colour (d_mcb d) /\
     covers_once lay (d_mcb d)) /\
    (forall i, In i (s_table (d_all d)) <-> i < l_sites lay) /\
    (forall i, In i (s_table (d_even d)) <->
       i < l_sites lay /\ let c := l_coord lay node i in Nat.Even (coord_sum (length c) c)) /\
    (forall i, In i (s_table (d_odd d)) <->
       i < l_sites lay /\ let c := l_coord lay node i in Nat.Odd (coord_sum (length c) c)).
Proof. exact initDefaultSets_ok. Qed.
Print Assumptions C08_default_sets.

Theorem C08_neighbours_change_parity : forall (L c : list nat) (mu : nat),
  in_lattice L c -> mu < length L -> Nat.Even (get L mu) ->
  coord_sum (length c) (neighbour L c mu) mod 2 <> coord_sum (length c) c mod 2.
Proof. exact neighbour_parity. Qed.
Print Assumptions C08_neighbours_change_parity.

Example C08_case : layout_ok (scalar_layout CB2 [4;3;2]) /\
  match initDefaultSets (scalar_layout CB2 [4;3;2]) 0 with
  | Val d => s_table (d_odd d) = seq 12 12
  | _ => False
  end.
Proof.
  split; [|vm_compute; reflexivity].
  apply scalar_layout_ok. repeat split; try (simpl; lia).
  - intros i Hi. do 3 (destruct i; [cbv; lia|]). simpl in Hi. lia.
  - exists 2. reflexivity.
Qed.

(** C56.  The default sets, hence Layout::create, need three dimensions: with one or two,
    initDefaultSets aborts for every non-empty lattice. *)
Theorem C56_low_dimensions_refuted : forall (lay : layout) (node : nat),
  layout_ok lay -> node < l_nodes lay -> 0 < l_sites lay -> length (l_size lay) < 3 ->
  initDefaultSets lay node = Abort.
Proof. exact initDefaultSets_low. Qed.
Print Assumptions C56_low_dimensions_refuted.

Example C56_case : initDefaultSets (scalar_layout LEXICO [4;4]) 0 = Abort
  /\ create1 LEXICO [4;4] = Created.
Proof. vm_compute. repeat split. Qed.

(** C09.  A copied Set is not independent of its source: after the source is destroyed the
    copy's site tables are dangling, and after the source is assigned to, the copy's table
    silently changes. *)
Definition demo_set (t : list nat) : list subset :=
  [{| s_ordRep := true; s_start := 0; s_end := 1; s_table := t |}].

Theorem C09_copy_independent_refuted :
  (exists ops, set_read (set_run ops empty_heap) 1 0 = Val (hd (Build_subset false 0 0 []) (demo_set [0;1]))
     /\ set_read (set_run (ops ++ [ODestroy 0]) empty_heap) 1 0 = Undef) /\
  (exists ops, set_read (set_run ops empty_heap) 1 0 = Val (hd (Build_subset false 0 0 []) (demo_set [0;1]))
     /\ exists s, set_read (set_run (ops ++ [OAssign 0 2]) empty_heap) 1 0 = Val s
                  /\ s_table s <> [0;1]).
Proof.
  split.
  - exists [OMake 0 (demo_set [0;1]); OCopy 1 0]. vm_compute. split; reflexivity.
  - exists [OMake 0 (demo_set [0;1]); OCopy 1 0; OMake 2 (demo_set [7;8])].
    split; [vm_compute; reflexivity|]. eexists. split; [vm_compute; reflexivity|]. discriminate.
Qed.
Print Assumptions C09_copy_independent_refuted.

(** What does hold: a copy of a set built by make reads as the source did as long as neither
    of the two is a target of a later operation. *)
Theorem C09_copy_of_live_source : forall pre post src dst content i s,
  src <> dst ->
  objs (set_run pre empty_heap) dst = None ->
  (forall op, In op post -> ~ targets op src /\ ~ targets op dst) ->
  nth_error content i = Some s ->
  set_read (set_run (pre ++ [OMake src content; OCopy dst src] ++ post) empty_heap) dst i = Val s.
Proof. exact copy_ok. Qed.
Print Assumptions C09_copy_of_live_source.

Example C09_case :
  set_read (set_run ([OMake 5 (demo_set [3])] ++ [OMake 0 (demo_set [0;1]); OCopy 1 0]
                     ++ [ODestroy 5; OMake 6 (demo_set [])]) empty_heap) 1 0
  = Val (hd (Build_subset false 0 0 []) (demo_set [0;1])).
Proof. vm_compute. reflexivity. Qed.

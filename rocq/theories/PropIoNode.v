(** Property C82: the nodes that do the input and output of QIO files. *)
From Coq Require Import List Arith ZArith Bool Lia.
From Verif Require Import Base LayoutModel LayoutSpec LayoutProofs LayoutOk IoNodeModel IoNodeSpec IoNodeProofs.
Import ListNotations.
Local Open Scope nat_scope.

(** C82.  With an I/O grid of positive extents every node is given an I/O node; an I/O node is its
    own I/O node; two nodes share one exactly if they lie in the same block when the machine is cut
    into slabs of ceil(machine extent / I/O extent) nodes. *)
Theorem C82_blocks : forall (M : machine) (g : list nat) (n : nat),
  machine_ok M -> length g = length (mgrid M) -> positive g -> n < num_nodes M ->
  exists r, io_node M (setIONodeGrid (map Z.of_nat g)) n = Val r /\ r < num_nodes M /\
    io_node M (setIONodeGrid (map Z.of_nat g)) r = Val r /\
    forall m, m < num_nodes M ->
      (io_node M (setIONodeGrid (map Z.of_nat g)) m = Val r <-> same_block (mgrid M) g (coord_of M n) (coord_of M m)).
Proof. intros. apply io_node_ok; auto. Qed.
Print Assumptions C82_blocks.

(** Node 0, the master, is an I/O node if the machine numbers the origin 0. *)
Theorem C82_master : forall (M : machine) (g : list nat),
  machine_ok M -> length g = length (mgrid M) -> positive g ->
  node_of M (repeat 0 (length (mgrid M))) = 0 ->
  io_node M (setIONodeGrid (map Z.of_nat g)) master_io_node = Val master_io_node.
Proof. intros. apply master_ok; auto. Qed.
Print Assumptions C82_master.

(** The number of I/O nodes: the product of the numbers of slabs; never more than asked for, and as
    many as asked for if the I/O grid divides the machine. *)
Theorem C82_count : forall (M : machine) (g : list nat),
  machine_ok M -> length g = length (mgrid M) -> positive g ->
  (exists S, NoDup S /\ assigned (io_node M (setIONodeGrid (map Z.of_nat g))) (num_nodes M) S /\
     length S = volume (slabs (mgrid M) g)) /\
  volume (slabs (mgrid M) g) <= volume g /\
  ((forall mu, mu < length (mgrid M) -> Nat.divide (get g mu) (get (mgrid M) mu)) ->
   volume (slabs (mgrid M) g) = volume g).
Proof.
  intros M g HM Hl Hg. split; [now apply count_ok|]. split; [now apply slabs_le|].
  intros Hd. f_equal. now apply slabs_exact.
Qed.
Print Assumptions C82_count.

(** Without an I/O grid, in multifile mode, and on a single process. *)
Theorem C82_no_grid : forall (M : machine) (n : nat),
  io_node M None n = Val n /\ io_node_multifile n = n /\ io_node_single n = Val master_io_node.
Proof. repeat split. Qed.
Print Assumptions C82_no_grid.

Lemma pos_list (l : list nat) : forallb (fun x => 0 <? x) l = true -> positive l.
Proof.
  intros H i Hi. rewrite forallb_forall in H. apply Nat.ltb_lt, H. now apply nth_In.
Qed.

Example C82_case : let M := lex_machine [4;2;3] in let g := [2;1;2] in
  machine_ok M /\ length g = length (mgrid M) /\ positive g /\
  map (io_node M (setIONodeGrid (map Z.of_nat g))) (seq 0 24) =
    map Val [0;0;2;2;0;0;2;2; 0;0;2;2;0;0;2;2; 16;16;18;18;16;16;18;18] /\ slabs (mgrid M) g = [2;1;2].
Proof.
  cbv zeta. split; [apply lex_machine_ok; [cbn; lia|now apply pos_list]|].
  split; [reflexivity|]. split; [now apply pos_list|]. now vm_compute.
Qed.

(** The number of I/O nodes asked for is not what one gets: 3 I/O nodes on a line of 4 nodes are 2. *)
Theorem C82_count_refuted : exists (M : machine) (g S : list nat),
  machine_ok M /\ length g = length (mgrid M) /\ positive g /\ NoDup S /\
  assigned (io_node M (setIONodeGrid (map Z.of_nat g))) (num_nodes M) S /\ volume g = 3 /\ length S = 2.
Proof.
  assert (HM : machine_ok (lex_machine [4;1;1;1])) by (apply lex_machine_ok; [cbn; lia|now apply pos_list]).
  destruct (count_ok (lex_machine [4;1;1;1]) [3;1;1;1] HM eq_refl ltac:(now apply pos_list)) as (S & H1 & H2 & H3).
  exists (lex_machine [4;1;1;1]), [3;1;1;1], S. split; [exact HM|].
  split; [reflexivity|]. split; [now apply pos_list|]. split; [exact H1|]. split; [exact H2|]. now rewrite H3.
Qed.
Print Assumptions C82_count_refuted.

(** An I/O grid with a zero extent, which the command line and setIONodeGrid accept, makes the
    assignment divide by zero for every node. *)
Theorem C82_zero_extent_refuted : forall (M : machine) (g : list Z) (n : nat),
  length g = length (mgrid M) -> In 0%Z g -> io_node M (setIONodeGrid g) n = Undef.
Proof. exact zero_grid. Qed.
Print Assumptions C82_zero_extent_refuted.

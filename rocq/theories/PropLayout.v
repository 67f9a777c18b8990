(** Properties C01 - C05: site layouts. *)
From Coq Require Import List Arith Lia.
From Verif Require Import LayoutModel LayoutSpec LayoutProofs LayoutOk.
Import ListNotations.

(** C01.  Composing and decomposing lexicographic site numbers are mutually inverse between
    the lattice and [0,volume), and the composed number is the lexicographic number (first
    coordinate fastest; last coordinate fastest in the 3-d checkerboard build). *)
Theorem C01_lexicographic_bijection : forall (k : layout_kind) (L : list nat),
  0 < length L -> positive L ->
  bijective_between (in_lattice L) (fun p => p < volume L)
    (fun c => local_site k c L) (fun p => crtesn k p L) /\
  forall c, in_lattice L c ->
    local_site k c L = match k with CB3D => lexnum_t L c | _ => lexnum L c end.
Proof. exact C01_all. Qed.
Print Assumptions C01_lexicographic_bijection.

Example C01_case : positive [4;3;2;5] /\ crtesn LEXICO 77 [4;3;2;5] = [1;1;0;3]
  /\ crtesn CB3D 77 [4;3;2;5] = [3;0;1;2] /\ local_site CB3D [3;0;1;2] [4;3;2;5] = 77.
Proof. split; [intros i Hi; do 4 (destruct i; [cbv; lia|]); simpl in Hi; lia|vm_compute; repeat split]. Qed.

(** C02.  Single-process layouts: siteCoords and linearSiteIndex are mutually inverse, and
    the self-check of Layout::create passes. *)
Theorem C02_scalar_layouts_bijective : forall (k : layout_kind) (L : list nat), adm1 k L ->
  bijective_between (in_lattice L) (fun i => i < volume L)
    (linearSiteIndex1 k L) (siteCoords1 k L).
Proof. exact scalar_bij. Qed.
Print Assumptions C02_scalar_layouts_bijective.

Theorem C02_create_self_check_passes : forall (k : layout_kind) (L : list nat), adm1 k L ->
  create1_check k L = true.
Proof. exact create1_check_ok. Qed.
Print Assumptions C02_create_self_check_passes.

Example C02_case : adm1 CB32 [4;2;6;2] /\ adm1 CB2 [4;3;5;7] /\ adm1 CB3D [6;3;5;7].
Proof.
  unfold adm1. repeat split; try (simpl; lia);
    try (intros i Hi; do 4 (destruct i; [cbv; lia|]); simpl in Hi; lia).
  - exists 1; reflexivity.
  - intros i [H1 H2]. destruct i as [|[|[|[|i]]]]; simpl in *; try lia;
      [exists 1|exists 3|exists 1]; reflexivity.
  - exists 2; reflexivity.
  - exists 3; reflexivity.
Qed.

(** C03.  In a checkerboarded layout the linear indices of block b are exactly the sites
    of colour b, on one process and on every node of a machine. *)
Theorem C03_scalar_checkerboards_contiguous : forall (k : layout_kind) (L : list nat) (i b : nat),
  adm1 k L -> i < volume L ->
  let B := volume L / blocks k (length L) in
  (b * B <= i < (b + 1) * B <-> colour_of k (siteCoords1 k L i) = b).
Proof. exact C03_scalar. Qed.
Print Assumptions C03_scalar_checkerboards_contiguous.

Theorem C03_parallel_checkerboards_contiguous :
  forall (k : layout_kind) (M : machine) (L : list nat) (q i b : nat),
  admP k M L -> q < num_nodes M -> i < sites_on_node M L ->
  let B := sites_on_node M L / blocks k (length L) in
  (b * B <= i < (b + 1) * B <-> colour_of k (siteCoordsP k M L q i) = b).
Proof. exact C03_par. Qed.
Print Assumptions C03_parallel_checkerboards_contiguous.

(** C04.  Multi-node layouts: (nodeNumber, linearSiteIndex) is a bijection onto
    [0,numNodes) x [0,sitesOnNode), inverted by siteCoords. *)
Theorem C04_multi_node_layouts_bijective :
  forall (k : layout_kind) (M : machine) (L : list nat), admP k M L ->
  layout_ok (par_layout k M L).
Proof. exact par_layout_ok. Qed.
Print Assumptions C04_multi_node_layouts_bijective.

(** Layout::create's acceptance tests, with a grid from QMP that divides the lattice it is
    handed, lead to such a layout. *)
Theorem C04_create_checks_suffice : forall (k : layout_kind) (M : machine) (L : list nat),
  par_kind k = true -> 0 < length L -> positive L ->
  (k = CB3D -> 2 <= length L) -> machine_ok M -> length (mgrid M) = length L ->
  createP_check k M L = true ->
  (forall i, i < length L ->
     Nat.divide (get (mgrid M) i) (get L i / get (min_dim k (length L)) i)) ->
  admP k M L.
Proof. exact createP_adm. Qed.
Print Assumptions C04_create_checks_suffice.

Example C04_case : admP CB2 (lex_machine [2;1;3]) [8;3;6].
Proof.
  unfold admP. split; [reflexivity|]. split; [simpl; lia|].
  split; [intros i Hi; do 3 (destruct i; [cbv; lia|]); simpl in Hi; lia|].
  split; [discriminate|].
  split; [apply lex_machine_ok; [simpl; lia|
    intros i Hi; do 3 (destruct i; [cbv; lia|]); simpl in Hi; lia]|].
  split; [reflexivity|].
  intros i Hi. destruct i as [|[|[|i]]]; simpl in *; [exists 2|exists 3|exists 2|lia]; reflexivity.
Qed.
Example C04_case_values :
  siteCoordsP CB2 (lex_machine [2;1;3]) [8;3;6] 3 13 = [7;0;2] /\
  nodeNumberP (lex_machine [2;1;3]) [8;3;6] [7;0;2] = 3 /\
  linearSiteIndexP CB2 (lex_machine [2;1;3]) [8;3;6] [7;0;2] = 13.
Proof. vm_compute. repeat split. Qed.

(** C05.  The single-process Layout::create accepts a lattice of positive extents exactly
    if it is admissible for the layout (in particular it never accepts an odd first extent
    in a checkerboarded layout); otherwise the program stops. *)
Theorem C05_create_accepts_exactly_admissible : forall (k : layout_kind) (L : list nat),
  0 < length L -> positive L -> (create1 k L = Created <-> adm1 k L).
Proof. exact create1_iff. Qed.
Print Assumptions C05_create_accepts_exactly_admissible.

Example C05_case : create1 CB2 [3;2;2] = Aborted /\ create1 CB2 [1;2] = DivideByZero
  /\ create1 CB2 [4;3] = Created /\ create1 CB32 [6;2] = Aborted.
Proof. vm_compute. repeat split. Qed.

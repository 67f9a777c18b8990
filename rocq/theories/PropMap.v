(** Properties C10 - C13 and C51: maps and shifts. *)
From Coq Require Import List Arith ZArith Lia Permutation.
From Verif Require Import Base LayoutModel LayoutSpec LayoutProofs LayoutOk LayoutCases MapModel MapSpec MapProofs MapNN.
Import ListNotations.
Local Open Scope nat_scope.

(** C10.  The four kinds of map on one process. *)
Theorem C10_map_gathers : forall (T : Type) (lay : layout) (phi : list nat -> T) (f : mapfunc),
  layout_ok lay -> l_nodes lay = 1 -> site_map (l_size lay) (fun c => f c 1%Z) ->
  map_apply1 (map_make1 lay f) (stored lay phi 0) = Val (stored lay (fun c => phi (f c 1%Z)) 0).
Proof. exact @C10_map. Qed.
Print Assumptions C10_map_gathers.

Theorem C10_bidirectional_map_gathers :
  forall (T : Type) (lay : layout) (phi : list nat -> T) (f : mapfunc) (forward : bool),
  layout_ok lay -> l_nodes lay = 1 -> site_map (l_size lay) (fun c => f c (sign_of forward)) ->
  bimap_apply1 (bimap_make1 lay f) (stored lay phi 0) (sign_of forward) =
  Val (stored lay (fun c => phi (f c (sign_of forward))) 0).
Proof. exact @C10_bimap. Qed.
Print Assumptions C10_bidirectional_map_gathers.

Theorem C10_array_map_gathers :
  forall (T : Type) (lay : layout) (phi : list nat -> T) (f : arrayfunc) (n dir : nat),
  layout_ok lay -> l_nodes lay = 1 -> dir < n -> site_map (l_size lay) (fun c => f c 1%Z dir) ->
  arraymap_apply1 (arraymap_make1 lay f n) (stored lay phi 0) dir =
  Val (stored lay (fun c => phi (f c 1%Z dir)) 0).
Proof. exact @C10_arraymap. Qed.
Print Assumptions C10_array_map_gathers.

Theorem C10_array_bidirectional_map_gathers :
  forall (T : Type) (lay : layout) (phi : list nat -> T) (f : arrayfunc) (n : nat) (forward : bool) (dir : nat),
  layout_ok lay -> l_nodes lay = 1 -> dir < n ->
  site_map (l_size lay) (fun c => f c (sign_of forward) dir) ->
  arraybimap_apply1 (arraybimap_make1 lay f n) (stored lay phi 0) (sign_of forward) dir =
  Val (stored lay (fun c => phi (f c (sign_of forward) dir)) 0).
Proof. exact @C10_arraybimap. Qed.
Print Assumptions C10_array_bidirectional_map_gathers.

(** A map that is not injective (every site reads the first site of its row) and not the
    same in the two directions (backward reads the last). *)
Example C10_case :
  let lay := scalar_layout CB2 [4;2] in
  let f c (s : Z) := [if (s <? 0)%Z then 3 else 0; get c 1] in
  layout_ok lay /\ site_map [4;2] (fun c => f c 1%Z) /\
  map_apply1 (map_make1 lay f) [10;11;12;13;14;15;16;17] = Val [10;10;16;16;10;10;16;16] /\
  bimap_apply1 (bimap_make1 lay f) [10;11;12;13;14;15;16;17] (-1) = Val [15;15;13;13;15;15;13;13].
Proof.
  intros lay f. split; [apply scalar_layout_ok, adm1_case; reflexivity|]. split.
  - intros c Hc. apply in_lattice_2 in Hc as (x & y & -> & Hx & Hy). apply in_lattice_2i; cbn; lia.
  - vm_compute. repeat split.
Qed.

(** C11.  Shifts on one process. *)
Theorem C11_shift_inverse_permutation :
  forall (T : Type) (lay : layout) (l : list T) (forward : bool) (dir : nat),
  layout_ok lay -> l_nodes lay = 1 -> length l = l_sites lay -> dir < length (l_size lay) ->
  exists l', shift1 lay l (sign_of forward) dir = Val l' /\ length l' = l_sites lay /\
             Permutation l l' /\ shift1 lay l' (sign_of (negb forward)) dir = Val l.
Proof. intros. apply C11_all; assumption. Qed.
Print Assumptions C11_shift_inverse_permutation.

Theorem C11_shift_value :
  forall (T : Type) (lay : layout) (phi : list nat -> T) (forward : bool) (dir : nat),
  layout_ok lay -> l_nodes lay = 1 -> dir < length (l_size lay) ->
  shift1 lay (stored lay phi 0) (sign_of forward) dir
  = Val (stored lay (fun c => phi (step_site (l_size lay) forward dir c)) 0).
Proof. intros. apply shift1_ok; assumption. Qed.
Print Assumptions C11_shift_value.

Theorem C11_shifts_commute :
  forall (T : Type) (lay : layout) (l : list T) (fwd1 fwd2 : bool) (dir1 dir2 : nat),
  layout_ok lay -> l_nodes lay = 1 -> length l = l_sites lay ->
  dir1 < length (l_size lay) -> dir2 < length (l_size lay) ->
  bind (shift1 lay l (sign_of fwd1) dir1) (fun x => shift1 lay x (sign_of fwd2) dir2) =
  bind (shift1 lay l (sign_of fwd2) dir2) (fun x => shift1 lay x (sign_of fwd1) dir1).
Proof. intros. apply C11_comm; assumption. Qed.
Print Assumptions C11_shifts_commute.

Theorem C11_shift_around_is_identity :
  forall (T : Type) (lay : layout) (l : list T) (forward : bool) (dir : nat),
  layout_ok lay -> l_nodes lay = 1 -> length l = l_sites lay -> dir < length (l_size lay) ->
  iter_res (get (l_size lay) dir) (fun x => shift1 lay x (sign_of forward) dir) l = Val l.
Proof. intros. apply C11_cycle; assumption. Qed.
Print Assumptions C11_shift_around_is_identity.

Example C11_case :
  let lay := scalar_layout LEXICO [3;2] in
  layout_ok lay /\
  shift1 lay [0;1;2;3;4;5] 1 0 = Val [1;2;0;4;5;3] /\
  shift1 lay [0;1;2;3;4;5] (-1) 0 = Val [2;0;1;5;3;4] /\
  shift1 lay [0;1;2;3;4;5] 1 1 = Val [3;4;5;0;1;2].
Proof.
  intros lay. split; [apply scalar_layout_ok, adm1_case; reflexivity|]. vm_compute. repeat split.
Qed.

(** C12.  On several nodes, building the map and applying it succeeds and computes the
    same field as one process does. *)
Theorem C12_multi_node_map_equals_single :
  forall (T : Type) (lay1 lay : layout) (f : mapfunc) (phi : list nat -> T),
  layout_ok lay1 -> l_nodes lay1 = 1 -> layout_ok lay -> l_size lay1 = l_size lay ->
  site_permutation (l_size lay) (fun c => f c 1%Z) (fun c => f c (-1)%Z) ->
  one_partner lay (fun c => f c 1%Z) -> one_partner lay (fun c => f c (-1)%Z) ->
  exists psi, map_apply1 (map_make1 lay1 f) (stored lay1 phi 0) = Val (stored lay1 psi 0) /\
              run_mapP lay f (stored_all lay phi) = Val (stored_all lay psi) /\
              forall c, in_lattice (l_size lay) c -> psi c = phi (f c 1%Z).
Proof. exact @same_as_single. Qed.
Print Assumptions C12_multi_node_map_equals_single.

(** The restriction to one partner is enforced: otherwise the node concerned aborts. *)
Theorem C12_more_partners_abort :
  forall (lay : layout) (f : mapfunc) (q : nat) (c d : list nat),
  layout_ok lay -> q < l_nodes lay ->
  in_lattice (l_size lay) c -> in_lattice (l_size lay) d -> l_node lay c = q -> l_node lay d = q ->
  (exists s, (s = 1 \/ s = -1)%Z /\
     l_node lay (f c s) <> q /\ l_node lay (f d s) <> q /\ l_node lay (f c s) <> l_node lay (f d s)) ->
  map_makeP lay f q = Abort.
Proof. exact make_abort. Qed.
Print Assumptions C12_more_partners_abort.

(** A permutation that is not a shift, the reflection in direction 0 on three nodes, and a
    row-dependent shift that needs two sources, which is refused. *)
Example C12_case :
  let lay := par_layout LEXICO (lex_machine [3;1]) [6;2] in
  let f c (s : Z) := [5 - get c 0; get c 1] in
  layout_ok lay /\ site_permutation [6;2] (fun c => f c 1%Z) (fun c => f c (-1)%Z) /\
  run_mapP lay f [[0;1;10;11]; [2;3;12;13]; [4;5;14;15]]
  = Val [[5;4;15;14]; [3;2;13;12]; [1;0;11;10]] /\
  map_makeP lay (fun c s => [(get c 0 + (if (s <? 0)%Z then 6 - 2 * (get c 1 + 1) else 2 * (get c 1 + 1))) mod 6;
                             get c 1]) 0 = Abort.
Proof.
  intros lay f. split; [apply par_layout_ok, admP_case; reflexivity|]. split.
  - assert (G : forall c, in_lattice [6;2] c -> in_lattice [6;2] (f c 1%Z) /\ f (f c 1%Z) 1%Z = c).
    { intros c Hc. apply in_lattice_2 in Hc as (x & y & -> & Hx & Hy). unfold f. cbn [get nth].
      split; [apply in_lattice_2i; lia|]. f_equal. lia. }
    split; intros c Hc; apply G; exact Hc.
  - vm_compute. repeat split.
Qed.

(** C13.  The shift maps can be built on every admissible machine, for all four layouts,
    and the multi-node shift reads the neighbouring site. *)
Theorem C13_neighbour_maps_never_abort :
  forall (k : layout_kind) (M : machine) (L : list nat) (forward : bool) (dir q : nat),
  admP k M L -> dir < length L -> q < num_nodes M ->
  exists m, map_makeP (par_layout k M L)
              (PackageArrayBiDirectionalMapFunc (NearestNeighborMapFunc L) (sign_of forward) dir) q = Val m.
Proof. intros k M L b dir q H Hd Hq. apply (nn_make k M L H b dir Hd q Hq). Qed.
Print Assumptions C13_neighbour_maps_never_abort.

Theorem C13_multi_node_shift_value :
  forall (T : Type) (k : layout_kind) (M : machine) (L : list nat) (forward : bool) (dir : nat)
         (phi : list nat -> T),
  admP k M L -> dir < length L ->
  shiftP (par_layout k M L) (stored_all (par_layout k M L) phi) (sign_of forward) dir
  = Val (stored_all (par_layout k M L) (fun c => phi (step_site L forward dir c))).
Proof. intros. apply shiftP_ok; assumption. Qed.
Print Assumptions C13_multi_node_shift_value.

Example C13_case :
  let M := lex_machine [2;2] in
  admP CB2 M [8;2] /\
  shiftP (par_layout CB2 M [8;2]) (stored_all (par_layout CB2 M [8;2]) (fun c => get c 0 + 10 * get c 1)) 1 0
  = Val [[1;3;2;4]; [5;7;6;0]; [12;14;11;13]; [16;10;15;17]].
Proof.
  intros M. split; [apply admP_case; reflexivity|vm_compute; repeat split].
Qed.

(** C51.  uniquify_list. *)
Theorem C51_uniquify_list : forall ll : list nat, ll <> [] ->
  exists d, uniquify_list ll = Val d /\ NoDup d /\ (forall x, In x d <-> In x ll) /\
    forall i j x y, nth_error d i = Some x -> nth_error d j = Some y -> i < j ->
      exists a, nth_error ll a = Some x /\ ~ In y (firstn (S a) ll).
Proof. exact dedupe_sound. Qed.
Print Assumptions C51_uniquify_list.

Example C51_case : uniquify_list [5;5;3;5;7;3;1] = Val [5;3;7;1] /\ uniquify_list [] = Undef.
Proof. vm_compute. repeat split. Qed.

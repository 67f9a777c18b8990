(** Properties C14 - C19 and C57: data-parallel evaluation, reductions, global sums. *)
From Coq Require Import List Arith ZArith Bool Lia Permutation.
From Verif Require Import Base LayoutModel LayoutSpec LayoutProofs LayoutOk LayoutCases SetModel
  MapModel MapSpec MapProofs MapNN EvalModel EvalSpec EvalProofs RingProofs.
Import ListNotations.
Local Open Scope nat_scope.

(** C14.  Every index is given to exactly one thread, in mathematical integers. *)
Theorem C14_dispatch_covers_exactly : forall threads n : nat,
  0 < threads -> covers_exactly n (dispatch threads n).
Proof. exact C14_all. Qed.
Print Assumptions C14_dispatch_covers_exactly.

Theorem C14_dispatch_in_order : forall threads n : nat,
  0 < threads -> concat (map iterations (dispatch threads n)) = seq 0 n.
Proof. exact dispatch_iterations. Qed.
Print Assumptions C14_dispatch_in_order.

Example C14_case : dispatch 4 10 = [(0,2,0); (2,5,1); (5,7,2); (7,10,3)] /\
  dispatch 5 3 = [(0,1,0); (1,2,1); (2,3,2)] /\ dispatch 3 0 = [].
Proof. vm_compute. repeat split. Qed.

(** C15.  For every interleaving of the threads: the loop can be completed, and whenever it
    has completed the destination holds the right values on the subset and is unchanged
    elsewhere. *)
Theorem C15_assignment_exact :
  forall (T T1 : Type) (d : T) (op : T -> T1 -> T) (expr : list T -> nat -> T1) (threads : nat)
         (tab : list nat) (dest : list T),
  NoDup tab -> (forall i, In i tab -> i < length dest) -> 0 < threads -> reads_own_site d expr ->
  (exists dest', evaluate_run op expr d threads tab dest dest') /\
  forall dest', evaluate_run op expr d threads tab dest dest' ->
    assigned_on d tab (fun i => op (nth i dest d) (expr dest i)) dest dest'.
Proof. exact @C15_evaluate. Qed.
Print Assumptions C15_assignment_exact.

(** The same for the loops whose iterations OpenMP distributes (copymask, zero_rep,
    QDP_extract, QDP_insert), and for evaluate_F. *)
Theorem C15_parallel_for_exact :
  forall (T : Type) (d : T) (body : T -> nat -> T) (chunks : list (list nat)) (tab : list nat) (dest : list T),
  NoDup tab -> (forall i, In i tab -> i < length dest) -> assigns_once (length tab) chunks ->
  (exists dest', parfor_run body d chunks tab dest dest') /\
  forall dest', parfor_run body d chunks tab dest dest' ->
    assigned_on d tab (fun i => body (nth i dest d) i) dest dest'.
Proof. exact @C15_parfor. Qed.
Print Assumptions C15_parallel_for_exact.

Theorem C15_evaluate_F_exact :
  forall (T T1 : Type) (d : T) (op : T -> T1 -> T) (expr : nat -> T1) (chunks : list (list nat))
         (tab : list nat) (dest : list T),
  length tab <= length dest -> assigns_once (length tab) chunks ->
  (exists dest', evaluate_F_run op expr d chunks tab dest dest') /\
  forall dest', evaluate_F_run op expr d chunks tab dest dest' ->
    assigned_on d (seq 0 (length tab)) (fun j => op (nth j dest d) (expr (nth j tab 0))) dest dest'.
Proof. exact @C15_evaluate_F. Qed.
Print Assumptions C15_evaluate_F_exact.

(** dest[odd] += dest * 10 with two threads; the sequential schedule's result. *)
Example C15_case :
  let op (a b : nat) := a + b in
  let expr (m : list nat) i := nth i m 0 * 10 in
  reads_own_site 0 expr /\ NoDup [1;3;5] /\
  evaluate_run op expr 0 2 [1;3;5] [0;1;2;3;4;5] [0;11;2;33;4;55].
Proof.
  intros op expr. split; [intros m m' i E; unfold expr; rewrite E; reflexivity|].
  split; [repeat constructor; cbn; intuition lia|].
  apply (loop_terminates (fun j => nth j [1;3;5] 0)
           (fun m j => let i := nth j [1;3;5] 0 in op (nth i m 0) (expr m i))
           (map iterations (dispatch 2 3)) [0;1;2;3;4;5]).
Qed.

(** C16.  In 32-bit int arithmetic the bounds are right while numSiteTable times the number
    of active threads stays below 2^31; beyond, the last thread's bound is undefined.  So the
    property is FALSE as stated. *)
Theorem C16_dispatch_no_overflow_below : forall threads n myId : Z,
  (0 < threads)%Z -> (0 < n)%Z -> (0 <= myId < threads)%Z -> (myId < n)%Z ->
  (n * Z.min threads n <= 2147483647)%Z ->
  bounds_int threads n myId =
    Val ((n * myId) / Z.min threads n, (n * (myId + 1)) / Z.min threads n)%Z.
Proof. exact C16_ok. Qed.
Print Assumptions C16_dispatch_no_overflow_below.

Theorem C16_dispatch_overflow_refuted : forall threads n : Z,
  (0 < threads <= n)%Z -> (2147483647 < n * threads)%Z ->
  bounds_int threads n (threads - 1) = Undef.
Proof. exact C16_bad. Qed.
Print Assumptions C16_dispatch_overflow_refuted.

(** On a two's complement machine a 64^3 x 128 lattice with 64 threads loses the last
    thread's share: its loop runs from 33030144 to a negative bound. *)
Example C16_case : bounds_wrap 64 33554432 63 = (33030144, -33554432)%Z /\
  bounds_int 64 33554432 63 = Undef /\ bounds_int 64 33554432 62 = Val (32505856, 33030144)%Z.
Proof. vm_compute. repeat split. Qed.

(** C17.  For every schedule. *)
Theorem C17_sum_schedule_independent :
  forall (A : Type) (zero : A) (add : A -> A -> A) (expr : nat -> A) (threads : nat) (tab : list nat),
  comm_monoid zero add -> 0 < threads ->
  (exists d, sum_run zero add expr threads tab d) /\
  forall d, sum_run zero add expr threads tab d -> d = total zero add (map expr tab).
Proof. exact @C17_sum. Qed.
Print Assumptions C17_sum_schedule_independent.

Theorem C17_array_sum_schedule_independent :
  forall (A : Type) (zero : A) (add : A -> A -> A) (expr : nat -> nat -> A) (threads : nat)
         (tab : list nat) (size : nat),
  comm_monoid zero add -> 0 < threads ->
  (exists d, array_sum_run zero add expr threads tab size d) /\
  forall d, array_sum_run zero add expr threads tab size d ->
    d = total zero add (map (fun n => total zero add (map (expr n) tab)) (seq 0 size)).
Proof. exact @C17_array. Qed.
Print Assumptions C17_array_sum_schedule_independent.

Theorem C17_sumMulti_per_subset :
  forall (A : Type) (zero : A) (add : A -> A -> A) (lay : layout) (node : nat) (f : setfunc)
         (ss : list subset) (col : list nat) (expr : nat -> A) (maxthreads threads : nat),
  comm_monoid zero add -> 0 < threads <= maxthreads ->
  set_make lay node f = Val ss -> lat_color lay node f = Val col ->
  exists r, sumMulti zero add maxthreads threads (sf_num f) col expr (l_sites lay) = Val r /\
    length r = length ss /\
    (forall k s, nth_error ss k = Some s -> nth_error r k = Some (total zero add (map expr (s_table s)))) /\
    total zero add r = total zero add (map expr (seq 0 (l_sites lay))).
Proof. exact @C17_multi. Qed.
Print Assumptions C17_sumMulti_per_subset.

Theorem C17_sumMulti_array :
  forall (A : Type) (zero : A) (add : A -> A -> A) (lay : layout) (node : nat) (f : setfunc)
         (ss : list subset) (col : list nat) (expr : nat -> nat -> A) (size : nat),
  comm_monoid zero add -> set_make lay node f = Val ss -> lat_color lay node f = Val col ->
  forall n k s, n < size -> nth_error ss k = Some s ->
  exists row, nth_error (sumMultiArray zero add (sf_num f) col expr (l_sites lay) size) n = Some row /\
              nth_error row k = Some (total zero add (map (expr n) (s_table s))).
Proof. exact @C17_multi_array. Qed.
Print Assumptions C17_sumMulti_array.

(** The sum over the nodes of the node-local sums is the sum over the lattice: it does not
    depend on the layout or the machine. *)
Theorem C17_nodes_add_up :
  forall (A : Type) (zero : A) (add : A -> A -> A) (lay : layout) (f : list nat -> A),
  comm_monoid zero add -> layout_ok lay ->
  total zero add (map (fun q => total zero add (map f (map (l_coord lay q) (seq 0 (l_sites lay)))))
                      (seq 0 (l_nodes lay)))
  = box_sum zero add (l_size lay) f.
Proof.
  intros A zero add lay f M Hl. rewrite <- (all_nodes_sum M) by exact Hl. f_equal. apply map_ext.
  intros q. rewrite map_map. reflexivity.
Qed.
Print Assumptions C17_nodes_add_up.

Lemma nat_monoid : comm_monoid 0 Nat.add.
Proof. split; intros; lia. Qed.

Example C17_case :
  comm_monoid 0 Nat.add /\
  match set_make (scalar_layout LEXICO [4;2;1]) 0 SetRBFunc, lat_color (scalar_layout LEXICO [4;2;1]) 0 SetRBFunc with
  | Val ss, Val col => map s_table ss = [[0;2;5;7]; [1;3;4;6]] /\
      sumMulti 0 Nat.add 4 3 2 col (fun i => i * i) 8 = Val [78; 62]
  | _, _ => False
  end.
Proof. split; [apply nat_monoid|]. vm_compute. repeat split. Qed.

(** C18.  The ring reduction: all nodes get the same result, whatever the addition; and for
    a commutative monoid it is the sum over all nodes. *)
Theorem C18_ring_same_on_all_nodes :
  forall (A : Type) (add : A -> A -> A) (dflt : A) (G : list nat) (len : nat) (x : list nat -> list A)
         (c c' : list nat),
  positive G -> in_lattice G c -> in_lattice G c' ->
  sumT add G dflt len x c = sumT add G dflt len x c'.
Proof. intros. apply sumT_same; assumption. Qed.
Print Assumptions C18_ring_same_on_all_nodes.

Theorem C18_ring_is_the_sum :
  forall (A : Type) (zero : A) (add : A -> A -> A) (G : list nat) (len : nat) (x : list nat -> list A)
         (c : list nat) (j : nat),
  comm_monoid zero add -> positive G -> in_lattice G c -> j < len ->
  nth j (sumT add G zero len x c) zero = box_sum zero add G (fun p => nth j (x p) zero).
Proof. intros. apply sumT_total; assumption. Qed.
Print Assumptions C18_ring_is_the_sum.

(** A non-associative operation (subtraction): 2 x 3 nodes. *)
Example C18_case :
  let x c := [Z.of_nat (get c 0 + 10 * get c 1)] in
  map (sumT Z.sub [2;3] 0%Z 1 x) [[0;0]; [1;0]; [0;2]; [1;2]] = [[1]; [1]; [1]; [1]]%Z /\
  sumT Z.add [2;3] 0%Z 1 x [1;1] = [63]%Z.
Proof. vm_compute. repeat split. Qed.

(** C19.  [better a b] is a > b for globalMax and a < b for globalMin; the hypothesis is
    that this is the strict part of a total preorder (no NaN). *)
Theorem C19_global_extremum : forall (A : Type) (better : A -> A -> bool) (field : list A),
  total_preference better -> field <> [] ->
  exists x, globalExt better field = Val x /\ extremal better field x.
Proof. exact @globalExt_ok. Qed.
Print Assumptions C19_global_extremum.

Theorem C19_global_extremum_nodes : forall (A : Type) (better : A -> A -> bool) (fields : list (list A)),
  total_preference better -> fields <> [] -> Forall (fun l => l <> []) fields ->
  exists x, globalExtP better fields = Val x /\ extremal better (concat fields) x.
Proof. exact @globalExtP_ok. Qed.
Print Assumptions C19_global_extremum_nodes.

Example C19_case : total_preference (fun a b => (b <? a)%Z) /\
  globalExt (fun a b => (b <? a)%Z) [3; -7; 12; 12; 0]%Z = Val 12%Z /\
  globalExtP (fun a b => (a <? b)%Z) [[3; -7]; [12]; [0; -9]]%Z = Val (-9)%Z.
Proof.
  split; [split; intros *; rewrite ?Z.ltb_lt, ?Z.ltb_ge; lia|]. vm_compute. repeat split.
Qed.

(** C58.  isnan / isinf report whether some site of some node has the property, isfinite /
    isnormal whether all sites of all nodes have it. *)
Theorem C58_any_site : forall (A : Type) (p : A -> bool) (fields : list (list A)),
  any_site p fields = true <-> exists x, In x (concat fields) /\ p x = true.
Proof. exact @any_site_iff. Qed.
Print Assumptions C58_any_site.
Theorem C58_all_sites : forall (A : Type) (p : A -> bool) (fields : list (list A)),
  all_sites p fields = true <-> forall x, In x (concat fields) -> p x = true.
Proof. exact @all_sites_iff. Qed.
Print Assumptions C58_all_sites.
Example C58_case : any_site Nat.even [[1;3];[5;2];[7]] = true /\ all_sites Nat.odd [[1;3];[5;2];[7]] = false.
Proof. vm_compute. repeat split. Qed.

(** C57.  a = shift(a,FORWARD,0).  In the single-process architecture the property is FALSE:
    the expression reads elements that the loop has already overwritten. *)
Theorem C57_shift_in_place_refuted :
  let lay := scalar_layout LEXICO [4] in
  exists goff,
    nth_error (nth 1 (arraybimap_make1 lay (NearestNeighborMapFunc [4]) 1) []) 0 = Some goff /\
    shift1 lay [10;11;12;13] 1 0 = Val [11;12;13;10] /\
    shift_in_place goff 0 1 [10;11;12;13] [11;12;13;11].
Proof.
  intros lay. exists [1;2;3;0]. split; [reflexivity|]. split; [reflexivity|].
  apply (loop_terminates (fun j => nth j [0;1;2;3] 0)
           (fun m j => let i := nth j [0;1;2;3] 0 in nth (nth i [1;2;3;0] 0) m 0)
           (map iterations (dispatch 1 4)) [10;11;12;13]).
Qed.
Print Assumptions C57_shift_in_place_refuted.

(** Assigning to a different field is always right: the expression does not read the
    destination. *)
Theorem C57_shift_into_other_field :
  forall (T : Type) (d : T) (goff : list nat) (src dest : list T) (threads : nat),
  length src = length dest -> 0 < threads ->
  (exists dest', evaluate_run (fun _ v => v) (fun _ i => nth (nth i goff 0) src d) d threads
                   (seq 0 (length dest)) dest dest') /\
  forall dest', evaluate_run (fun _ v => v) (fun _ i => nth (nth i goff 0) src d) d threads
                  (seq 0 (length dest)) dest dest' ->
    assigned_on d (seq 0 (length dest)) (fun i => nth (nth i goff 0) src d) dest dest'.
Proof.
  intros T d goff src dest threads Hl HT.
  apply (C15_evaluate d (fun _ v : T => v) (fun _ i => nth (nth i goff 0) src d) threads (seq 0 (length dest)) dest).
  - apply seq_NoDup.
  - intros i Hi. apply in_seq in Hi. lia.
  - exact HT.
  - intros m m' i _. reflexivity.
Qed.
Print Assumptions C57_shift_into_other_field.

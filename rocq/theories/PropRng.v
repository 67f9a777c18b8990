(** Properties C20 - C29: random numbers. *)
From Coq Require Import List Arith ZArith Bool Lia Permutation SpecFloat.
From Verif Require Import Base LayoutModel LayoutSpec LayoutProofs LayoutOk LayoutCases EvalModel EvalSpec
  EvalProofs RngModel RngSpec RngProofs RngDraw RngOrder RngFloat RngNyu.
Import ListNotations.
Local Open Scope Z_scope.

Ltac run_it :=
  match goal with |- parfor_run ?b ?df ?c ?tab ?d ?d2 =>
    exact (loop_terminates (fun j => nth j tab 0%nat)
             (fun m j => let i := nth j tab 0%nat in b (nth i m df) i) c d) end.

(** C20 *)
Theorem C20_seed_product : forall a b : seed, seed_ok a -> seed_ok b ->
  exists c, seed_mul a b = Val c /\ seed_ok c /\ sval c = (sval a * sval b) mod 2 ^ 47.
Proof. exact seed_mul_val. Qed.
Print Assumptions C20_seed_product.
Theorem C20_seed_from_int : forall n : Z, -2147483648 <= n <= 2147483647 ->
  seed_ok (seed_of_int n) /\ sval (seed_of_int n) = n mod 2 ^ 36.
Proof. exact seed_of_int_val. Qed.
Print Assumptions C20_seed_from_int.
Theorem C20_seed_shift : forall (s : seed) (n : Z), seed_ok s -> 0 <= n <= 12 ->
  seed_ok (seed_shl s n) /\ sval (seed_shl s n) = (sval s * 2 ^ n) mod 2 ^ 47.
Proof. exact seed_shl_val. Qed.
Print Assumptions C20_seed_shift.
Theorem C20_seed_or : forall a b : seed, seed_ok a -> seed_ok b ->
  seed_ok (seed_or a b) /\ sval (seed_or a b) = Z.lor (sval a) (sval b).
Proof. exact seed_or_val. Qed.
Print Assumptions C20_seed_or.
Theorem C20_seed_compare : forall a b : seed, seed_ok a -> seed_ok b ->
  (seed_eq a b = true <-> sval a = sval b) /\ (seed_ne a b = true <-> sval a <> sval b).
Proof. exact seed_eq_val. Qed.
Print Assumptions C20_seed_compare.
(** Every number below 2^47 is a seed; different seeds stand for different numbers. *)
Theorem C20_seed_representation : forall z : Z, 0 <= z < 2 ^ 47 ->
  seed_ok (seed_of z) /\ sval (seed_of z) = z /\ forall s, seed_ok s -> sval s = z -> s = seed_of z.
Proof.
  intros z Hz. split; [apply seed_of_ok|]. split; [apply seed_of_val, Hz|]. intros s Hs E.
  apply seed_of_stream; assumption.
Qed.
Print Assumptions C20_seed_representation.
Example C20_case :
  seed_mul (seed_of 140737488355327) (seed_of 123456789012345) = Val (seed_of (2 ^ 47 - 123456789012345)) /\
  sval (seed_shl (seed_of 12345678901) 12) = 12345678901 * 4096 /\
  (* a shift by 13 bits is not supported, as the comment in the code says *)
  sval (seed_shl (mkSeed 4095 4095 0 0) 13) <> (sval (mkSeed 4095 4095 0 0) * 2 ^ 13) mod 2 ^ 47.
Proof. vm_compute. repeat split; discriminate. Qed.

(** C21.  [ready lay q g]: [lay] is a sound layout of fewer than 2^30 sites and [g] is the
    generator initRNG sets up on node [q]. *)
Theorem C21_site_multipliers : forall (lay : layout) (q : nat),
  layout_ok lay -> Z.of_nat (volume (l_size lay)) < 2 ^ 30 -> (q < l_nodes lay)%nat ->
  exists g, initRNG lay q = Val g /\
    sval (r_mult g) = multiplier /\
    sval (r_mult_n g) = multiplier ^ Z.of_nat (volume (l_size lay) + 1) mod 2 ^ 47 /\
    forall i, (i < l_sites lay)%nat -> exists s, nth_error (r_latt g) i = Some s /\ seed_ok s /\
      sval s = multiplier ^ Z.of_nat (lexnum (l_size lay) (l_coord lay q i) + 1) mod 2 ^ 47.
Proof.
  intros lay q Hl Hv Hq. destruct (initRNG_ok lay q Hl Hv Hq) as (g & E & _ & F1 & _ & F2 & F3 & F4).
  exists g. split; [exact E|]. split; [exact F1|]. split; [exact F2|]. intros i Hi.
  exists (nth i (r_latt g) (mkSeed 0 0 0 0)). split; [apply nth_error_nth'; rewrite F3; exact Hi|].
  apply F4, Hi.
Qed.
Print Assumptions C21_site_multipliers.
(** With 2^30 sites or more numbits overflows: the initialisation is undefined. *)
Theorem C21_large_lattice_refuted : forall (lay : layout) (q : nat),
  2 ^ 30 <= Z.of_nat (volume (l_size lay)) -> initRNG lay q = Undef.
Proof. exact initRNG_big. Qed.
Print Assumptions C21_large_lattice_refuted.
Example C21_case :
  layout_ok (scalar_layout CB2 [4;3;2]%nat) /\
  match initRNG (scalar_layout CB2 [4;3;2]%nat) 0 with
  | Val g => length (r_latt g) = 24%nat /\
      sval (nth 0 (r_latt g) (mkSeed 0 0 0 0)) = multiplier /\
      sval (nth 1 (r_latt g) (mkSeed 0 0 0 0)) = multiplier ^ 3 mod 2 ^ 47
  | _ => False end /\
  2 ^ 30 <= Z.of_nat (volume [128;128;128;512]%nat).
Proof.
  split; [apply scalar_layout_ok, adm1_case; reflexivity|]. split; [vm_compute; repeat split|].
  cbn [volume]. rewrite !Nat2Z.inj_mul. vm_compute. discriminate.
Qed.

(** C22.  One lattice draw, any schedule: the value at a site depends only on the starting
    seed, the lattice size and the lattice coordinate. *)
Theorem C22_lattice_draw :
  forall (R : Type) (conv : seed -> R) (lay : layout) (q : nat) (guard : bool) (g : rng) (k : nat) (tab : list nat)
         (chunks : list (list nat)) (order : list nat) (dflt : list R) (d : list (list R)) (s : seed)
         (d' : list (list R)) (r' : res seed),
  ready lay q g -> seed_ok s -> NoDup tab ->
  (forall i, In i tab -> (i < l_sites lay)%nat) -> (forall i, In i tab -> (i < length d)%nat) ->
  random_run conv guard g k tab chunks order dflt d s d' r' ->
  assigned_on dflt tab
    (fun i => map (fun w => conv (seed_of (lattice_number (l_size lay) (sval s) (l_coord lay q i) w))) (seq 0 k)) d d' /\
  forall s', r' = Val s' ->
    (guard = true /\ tab = [] /\ s' = s) \/
    (tab <> [] /\ s' = seed_of (seed_after_lattice (l_size lay) (sval s) k)).
Proof. exact @random_run_ok. Qed.
Print Assumptions C22_lattice_draw.
(** A whole history of scalar and lattice draws. *)
Theorem C22_history :
  forall (R : Type) (conv : seed -> R) (lay : layout) (q : nat) (guard : bool) (g : rng) (s : seed)
         (h : list draw) (o : list drawn) (s' : seed),
  ready lay q g -> seed_ok s -> Forall (wf_draw lay) h ->
  Forall (fun d => match d with DLattice _ tab => tab <> [] | _ => True end) h ->
  draws conv guard g s h o s' ->
  expected conv (l_size lay) (l_coord lay q) (sval s) h o /\
  seed_ok s' /\ sval s' = stream (sval s) (offset (l_size lay) h (length h)).
Proof. exact @draws_ok. Qed.
Print Assumptions C22_history.
Theorem C22_gaussian :
  forall (R : Type) (conv : seed -> R) (gauss : list R -> list R -> list R) (lay : layout) (q : nat) (guard : bool)
         (g : rng) (k : nat) (tab : list nat) (dflt : list R) (d : list (list R)) (s : seed) (d' : list (list R)) (s' : seed),
  ready lay q g -> seed_ok s -> NoDup tab -> tab <> [] ->
  (forall i, In i tab -> (i < l_sites lay)%nat) -> (forall i, In i tab -> (i < length d)%nat) ->
  gaussian_run conv gauss guard g k tab dflt d s d' s' ->
  assigned_on dflt tab
    (fun i => gauss
       (map (fun w => conv (seed_of (lattice_number (l_size lay) (sval s) (l_coord lay q i) w))) (seq 0 k))
       (map (fun w => conv (seed_of (lattice_number (l_size lay) (seed_after_lattice (l_size lay) (sval s) k)
                                                    (l_coord lay q i) w))) (seq 0 k))) d d' /\
  sval s' = seed_after_lattice (l_size lay) (seed_after_lattice (l_size lay) (sval s) k) k.
Proof. exact @gaussian_run_ok. Qed.
Print Assumptions C22_gaussian.

(** The same site of a 4 x 2 lattice on one process and on two nodes, drawn by two threads. *)
Example C22_case :
  let lay1 := scalar_layout CB2 [4;2]%nat in
  let lay2 := par_layout LEXICO (lex_machine [2;1]%nat) [4;2]%nat in
  layout_ok lay1 /\ layout_ok lay2 /\
  match initRNG lay1 0, initRNG lay2 1 with
  | Val g1, Val g2 =>
      l_coord lay1 0 5 = [3;0]%nat /\ l_coord lay2 1 1 = [3;0]%nat /\
      fst (site_fill sval g1 2 default_seed 5) = fst (site_fill sval g2 2 default_seed 1) /\
      random_run sval true g2 1 [1;3]%nat [[0];[1]]%nat [1;0]%nat [] [[];[];[];[]] default_seed
        [[]; fst (site_fill sval g2 1 default_seed 1); []; fst (site_fill sval g2 1 default_seed 3)]
        (Val (snd (site_fill sval g2 1 default_seed 1)))
  | _, _ => False end.
Proof.
  intros lay1 lay2. split; [apply scalar_layout_ok, adm1_case; reflexivity|].
  split; [apply par_layout_ok, admP_case; reflexivity|].
  destruct (initRNG lay1 0) as [g1| |] eqn:E1; [|vm_compute in E1; discriminate|vm_compute in E1; discriminate].
  destruct (initRNG lay2 1) as [g2| |] eqn:E2; [|vm_compute in E2; discriminate|vm_compute in E2; discriminate].
  vm_compute in E1, E2. injection E1 as <-. injection E2 as <-.
  split; [reflexivity|]. split; [reflexivity|]. split; [vm_compute; reflexivity|].
  split; [discriminate|]. split; [apply Permutation_refl|]. split; [apply perm_swap|]. split; [|vm_compute; reflexivity].
  run_it.
Qed.

(** C23 *)
Theorem C23_streams_distinct : forall (s : Z) (n m : nat),
  Z.odd s = true -> Z.of_nat n < 2 ^ 45 -> Z.of_nat m < 2 ^ 45 -> stream s n = stream s m -> n = m.
Proof. exact stream_inj. Qed.
Print Assumptions C23_streams_distinct.
Theorem C23_period : forall (s : Z) (n m : nat), Z.of_nat m = 2 ^ 45 -> stream s (n + m) = stream s n.
Proof. exact stream_period. Qed.
Print Assumptions C23_period.
(** Numbers of different draws, sites or words of a history are different, as long as the
    history advances the stream by less than 2^45. *)
Theorem C23_history_distinct :
  forall (L : list nat) (s : Z) (h : list draw) (j j' : nat) (d d' : draw) (c c' : list nat) (w w' : nat),
  Z.odd s = true -> Z.of_nat (offset L h (length h)) < 2 ^ 45 ->
  nth_error h j = Some d -> nth_error h j' = Some d' ->
  (match d with DScalar _ => True | DLattice _ _ => in_lattice L c end) ->
  (match d' with DScalar _ => True | DLattice _ _ => in_lattice L c' end) ->
  (w < words_of d)%nat -> (w' < words_of d')%nat ->
  number_of L (stream s (offset L h j)) d c w = number_of L (stream s (offset L h j')) d' c' w' ->
  j = j' /\ same_position d c c' w w'.
Proof. exact history_distinct. Qed.
Print Assumptions C23_history_distinct.
Example C23_case :
  let h := [DScalar 3; DLattice 2 [0;1]%nat; DScalar 1; DLattice 18 [0;1;2;3]%nat] in
  Z.odd 11 = true /\ offset [2;2]%nat h 4 = 104%nat /\
  number_of [2;2]%nat (stream 11 (offset [2;2]%nat h 1)) (DLattice 2 [0;1]%nat) [1;1]%nat 1 = stream 11 (3 + 9).
Proof. vm_compute. repeat split. Qed.

(** C24.  Restoring the seed and drawing again gives the same numbers, whatever the two
    schedules were. *)
Theorem C24_replay :
  forall (R : Type) (conv : seed -> R) (lay : layout) (q : nat) (guard : bool) (g : rng) (h : list draw),
  ready lay q g -> Forall (wf_draw lay) h ->
  forall (s : seed) (o1 o2 : list drawn) (s1 s2 : seed), seed_ok s ->
  draws conv guard g s h o1 s1 -> draws conv guard g s h o2 s2 -> same_output h o1 o2 /\ s1 = s2.
Proof. exact @draws_replay. Qed.
Print Assumptions C24_replay.
Example C24_case :
  match initRNG (scalar_layout LEXICO [2]%nat) 0 with
  | Val g => exists o s', draws sval false g default_seed [DScalar 1; DLattice 1 [1]%nat] o s' /\
      s' = seed_of (stream 11 4)
  | _ => False end.
Proof.
  destruct (initRNG (scalar_layout LEXICO [2]%nat) 0) as [g| |] eqn:E; vm_compute in E; try discriminate.
  injection E as <-. do 2 eexists. split.
  - eapply draws_scalar; [reflexivity|]. eapply draws_lattice with (chunks := [[0%nat]]) (order := [0%nat]) (dflt := []) (d := [[];[]]).
    + intros i [<-|[]]. cbn. lia.
    + split; [discriminate|]. split; [apply Permutation_refl|]. split; [apply Permutation_refl|].
      split; [run_it|]. vm_compute. reflexivity.
    + apply draws_nil.
  - vm_compute. reflexivity.
Qed.

(** C25.  In exact arithmetic the number is in [0,1). *)
Theorem C25_exact_in_unit_interval : forall s : seed, seed_ok s -> 0 <= sval s < 2 ^ 47.
Proof. exact sval_range. Qed.
Print Assumptions C25_exact_in_unit_interval.
(** In floating point the property is FALSE: the number (in units of 2^-47) is in [0,1], and
    it is exactly 1 for the topmost seeds: in single precision, and in double precision
    because sranf casts to float. *)
Theorem C25_single_precision_refuted : forall s : seed, seed_ok s ->
  0 <= number32 s <= 2 ^ 47 /\ (number32 s = 2 ^ 47 <-> 2 ^ 47 - 2 ^ 22 - 2 ^ 11 <= sval s).
Proof. exact number32_range. Qed.
Print Assumptions C25_single_precision_refuted.
Theorem C25_double_precision_refuted : forall s : seed, seed_ok s ->
  0 <= number64 s <= 2 ^ 47 /\ (number64 s = 2 ^ 47 <-> 2 ^ 47 - 2 ^ 22 <= sval s).
Proof. exact number64_range. Qed.
Print Assumptions C25_double_precision_refuted.
(** Such a seed is reached from the default seed. *)
Theorem C25_one_is_reached : exists n : nat,
  number32 (seed_of (stream (sval default_seed) n)) = 2 ^ 47 /\
  number64 (seed_of (stream (sval default_seed) n)) = 2 ^ 47.
Proof.
  destruct top_seed_reached as [n E]. exists n. change (sval default_seed) with 11. rewrite E.
  split; vm_compute; reflexivity.
Qed.
Print Assumptions C25_one_is_reached.
(** From a seed that is not 0, no number is ever 0, in either precision: the logarithm that gaussian takes
    (include/qdp_reality.h:1796, 2558) is finite.  From seed 0 every number is 0. *)
Theorem C25_positive : forall (s : Z) (n : nat),
  (s mod 2 ^ 47 <> 0 -> 0 < number32 (seed_of (stream s n)) /\ 0 < number64 (seed_of (stream s n))) /\
  (s mod 2 ^ 47 = 0 -> number32 (seed_of (stream s n)) = 0 /\ number64 (seed_of (stream s n)) = 0).
Proof.
  intros s n. pose proof (stream_range s n) as SR. pose proof (seed_of_ok (stream s n)) as OK.
  pose proof (seed_of_val _ SR) as V. pose proof (number32_pos _ OK) as P32. pose proof (number64_pos _ OK) as P64.
  pose proof (proj1 (proj1 (number32_range _ OK))). pose proof (proj1 (proj1 (number64_range _ OK))).
  pose proof (stream_zero s n) as Z0. rewrite V in *.
  split; intros S; [assert (stream s n <> 0) by (intros E; now apply S, Z0)|assert (stream s n = 0) by now apply Z0]; lia.
Qed.
Print Assumptions C25_positive.
(** The integer model of the floating-point operations agrees with the standard library's
    IEEE 754 operations on these seeds (binary32: 24 bits). *)
Definition sf_seedToFloat (p e : Z) (s : seed) : spec_float :=
  let of_Z z := binary_normalize p e z 0 false in
  let twom11 := binary_normalize p e 1 (-11) false in
  let twom12 := binary_normalize p e 1 (-12) false in
  let d := SFmul p e twom12 (of_Z (e0 s)) in
  let d := SFmul p e twom12 (SFadd p e (of_Z (e1 s)) d) in
  let d := SFmul p e twom12 (SFadd p e (of_Z (e2 s)) d) in
  SFmul p e twom11 (SFadd p e (of_Z (e3 s)) d).
Example C25_case :
  Forall (fun z => sf_seedToFloat 24 128 (seed_of z) = binary_normalize 24 128 (number32 (seed_of z)) (-47) false)
    [2 ^ 47 - 1; 2 ^ 47 - 2 ^ 22 - 2 ^ 11; 2 ^ 47 - 2 ^ 22 - 2 ^ 11 - 1; 123456789012345; 987654321; 11] /\
  sf_seedToFloat 24 128 (seed_of (2 ^ 47 - 1)) = S754_finite false 8388608 (-23).
Proof. split; [repeat constructor; vm_compute; reflexivity|vm_compute; reflexivity]. Qed.

(** C26.  The nodes keep the same seed if every node owns at least one site of each subset
    (and its threads with number below the site count get an iteration). *)
Theorem C26_nodes_agree :
  forall (R : Type) (conv : seed -> R) (lay : layout) (q : nat) (g : rng) (k : nat) (tab : list nat)
         (chunks : list (list nat)) (order : list nat) (s : seed),
  ready lay q g -> seed_ok s -> tab <> [] -> (forall i, In i tab -> (i < l_sites lay)%nat) -> chunks <> [] ->
  Permutation (concat chunks) (seq 0 (length tab)) -> Permutation order (seq 0 (length chunks)) ->
  (forall t, (t < length chunks)%nat -> (t < length tab)%nat -> nth t chunks [] <> []) ->
  write_back conv true g k tab s chunks order
    = Val (seed_of (seed_after_lattice (l_size lay) (sval s) k)).
Proof.
  intros R conv lay q g k tab chunks order s Hr Hs Hne Ht Hc P Po Hw.
  destruct (write_back_defined conv true g k tab s chunks order) as [s' E]; [intros t H1 H2; apply Hw; auto|exact Po|].
  rewrite E. f_equal.
  destruct (write_back_ok conv lay q true g k tab s chunks order s' Hr Hs Ht Hc P Po E) as [(_ & K & _)|[_ K]];
    [contradiction|exact K].
Qed.
Print Assumptions C26_nodes_agree.
(** A node without a site of the subset keeps the old seed, which differs from the others'
    new seed: the property is FALSE. *)
Theorem C26_empty_node_refuted :
  forall (R : Type) (conv : seed -> R) (lay : layout) (q : nat) (g : rng) (k : nat) (chunks : list (list nat))
         (order : list nat) (s : seed),
  (0 < k)%nat -> Z.of_nat ((volume (l_size lay) + 1) * k) < 2 ^ 45 -> seed_ok s -> Z.odd (sval s) = true ->
  Permutation order (seq 0 (length chunks)) ->
  write_back conv true g k [] s chunks order = Val s /\
  sval s <> seed_after_lattice (l_size lay) (sval s) k.
Proof.
  intros R conv lay q g k chunks order s Hk Hb Hs Ho Po. split.
  - unfold write_back. cbn [length]. clear Po.
    induction order as [|t order IH]; [reflexivity|]. cbn [fold_left]. exact IH.
  - unfold seed_after_lattice. intros E.
    assert (E0 : stream (sval s) 0 = stream (sval s) ((volume (l_size lay) + 1) * k)).
    { rewrite <- E, stream_0. apply Z.mod_small, sval_range, Hs. }
    apply stream_inj in E0; [nia|exact Ho|reflexivity|exact Hb].
Qed.
Print Assumptions C26_empty_node_refuted.
(** Two nodes in time direction, the subset is time slice 0: node 1 owns none of it.  The next
    scalar random numbers differ. *)
Example C26_case :
  let lay := par_layout LEXICO (lex_machine [1;2]%nat) [2;2]%nat in
  layout_ok lay /\
  match initRNG lay 0, initRNG lay 1 with
  | Val g0, Val g1 =>
      match write_back sval true g0 1 [0;1]%nat default_seed [[0;1]]%nat [0]%nat,
            write_back sval true g1 1 [] default_seed [[]] [0]%nat with
      | Val s0, Val s1 => s1 = default_seed /\ s0 <> s1 /\
          fst (random_scalar sval g0 1 s0) <> fst (random_scalar sval g1 1 s1)
      | _, _ => False end
  | _, _ => False end.
Proof.
  intros lay. split; [apply par_layout_ok, admP_case; reflexivity|]. vm_compute. repeat split; discriminate.
Qed.

(** C27.  The single-process version: right if every thread gets an iteration, *)
Theorem C27_seed_after_fill :
  forall (R : Type) (conv : seed -> R) (lay : layout) (q : nat) (g : rng) (k : nat) (tab : list nat)
         (chunks : list (list nat)) (order : list nat) (s : seed),
  ready lay q g -> seed_ok s -> (forall i, In i tab -> (i < l_sites lay)%nat) -> chunks <> [] ->
  Permutation (concat chunks) (seq 0 (length tab)) -> Permutation order (seq 0 (length chunks)) ->
  (forall t, (t < length chunks)%nat -> nth t chunks [] <> []) ->
  write_back conv false g k tab s chunks order
    = Val (seed_of (seed_after_lattice (l_size lay) (sval s) k)).
Proof.
  intros R conv lay q g k tab chunks order s Hr Hs Ht Hc P Po Hw.
  destruct (write_back_defined conv false g k tab s chunks order) as [s' E]; [intros t H1 H2; apply Hw; auto|exact Po|].
  rewrite E. f_equal.
  destruct (write_back_ok conv lay q false g k tab s chunks order s' Hr Hs Ht Hc P Po E) as [(K & _)|[_ K]];
    [discriminate|exact K].
Qed.
Print Assumptions C27_seed_after_fill.
(** but FALSE as soon as there are more threads than sites: some merge order stores an
    uninitialised seed, whatever the distribution of the iterations. *)
Theorem C27_uninitialised_refuted :
  forall (R : Type) (conv : seed -> R) (g : rng) (k : nat) (tab : list nat) (chunks : list (list nat)) (s : seed),
  Permutation (concat chunks) (seq 0 (length tab)) -> (length tab < length chunks)%nat ->
  exists order, Permutation order (seq 0 (length chunks)) /\
    write_back conv false g k tab s chunks order = Undef.
Proof.
  intros R conv g k tab chunks s P H.
  destruct (more_threads_than_sites chunks (length tab) P H) as (t & Ht & E).
  exact (write_back_undefined conv g k tab s chunks t Ht E).
Qed.
Print Assumptions C27_uninitialised_refuted.
(** One site, two threads; and an empty subset with a single thread. *)
Example C27_case :
  match initRNG (scalar_layout LEXICO [2]%nat) 0 with
  | Val g => write_back sval false g 1 [1]%nat default_seed [[0];[]]%nat [0;1]%nat = Undef /\
             write_back sval false g 1 [1]%nat default_seed [[0];[]]%nat [1;0]%nat = Val (seed_of (stream 11 3)) /\
             write_back sval false g 1 [] default_seed [[]] [0]%nat = Undef
  | _ => False end.
Proof. vm_compute. repeat split. Qed.

(** C28.  RANNYU is not the documented generator: its numbers leave [0,1) (call number 306
    from the default seed) and its states do not follow the 48-bit recurrence. *)
Theorem C28_not_the_documented_generator_refuted :
  (exists l, rannyu_iter 306 rannyu_default = Val l /\ 2 ^ 48 <= rannyu_ran l) /\
  (exists l, rannyu_step rannyu_default = Val l /\ rannyu_ran l <> rannyu_next (rannyu_ran rannyu_default)).
Proof.
  split.
  - eexists. split; [vm_compute; reflexivity|]. vm_compute. discriminate.
  - eexists. split; [vm_compute; reflexivity|]. vm_compute. discriminate.
Qed.
Print Assumptions C28_not_the_documented_generator_refuted.
(** What does hold: no overflow, the low 36 bits follow the recurrence modulo 2^36, and the
    numbers are in [0, 4396/4096). *)
Theorem C28_low_bits : forall l : ranny, ranny_ok l ->
  exists l', rannyu_step l = Val l' /\ ranny_ok l' /\
    low36 l' = (rannyu_multiplier * low36 l + 1) mod 2 ^ 36.
Proof. exact rannyu_step_ok. Qed.
Print Assumptions C28_low_bits.
Theorem C28_range : forall l : ranny, ranny_ok l -> 0 <= rannyu_ran l < 4396 * 2 ^ 36.
Proof. exact rannyu_ran_bound. Qed.
Print Assumptions C28_range.
Example C28_case : ranny_ok rannyu_default /\ rannyu_iter 306 rannyu_default = Val (mkR 4145 2456 15 463).
Proof. split; [unfold ranny_ok; cbn; lia|vm_compute; reflexivity]. Qed.

(** C29.  Before the first number setrn is ignored: the property is FALSE. *)
Theorem C29_setrn_ignored_refuted : forall (n : nat) (iseed : ranny),
  rannyu_draw (S n) (rannyu_setrn rannyu_start iseed) = rannyu_draw (S n) rannyu_start.
Proof. reflexivity. Qed.
Print Assumptions C29_setrn_ignored_refuted.
(** After a first number it is honoured, and savern returns it. *)
Theorem C29_setrn_after_first_number : forall (n m : nat) (st st' : rstate) (xs : list Z) (iseed : ranny),
  (0 < m)%nat -> rannyu_draw m st = Val (xs, st') ->
  bind (rannyu_draw n (rannyu_setrn st' iseed)) (fun p => Val (fst p)) = rannyu_numbers n iseed /\
  rannyu_savern (rannyu_setrn st' iseed) = Some iseed.
Proof.
  intros n m st st' xs iseed Hm E. split; [|reflexivity].
  unfold rannyu_setrn. rewrite (rannyu_draw_flag m st xs st' (or_introl Hm) E). apply rannyu_draw_inited.
Qed.
Print Assumptions C29_setrn_after_first_number.
Example C29_case :
  match rannyu_draw 1 (rannyu_setrn rannyu_start (mkR 1 2 3 4)), rannyu_numbers 1 (mkR 1 2 3 4) with
  | Val (xs, st), Val ys => xs <> ys /\
      match rannyu_draw 1 (rannyu_setrn st (mkR 1 2 3 4)) with Val (zs, _) => zs = ys | _ => False end
  | _, _ => False end.
Proof. vm_compute. split; [discriminate|reflexivity]. Qed.

(** The specialised norm2, innerProduct and innerProductReal of lattice fermions (OLattice<TVec>):
    include/scalarsite_generic/qdp_scalarsite_generic_blas.h:2222-2620.

    Simplifications.  REAL and DOUBLE are one ring, so the rounding of a partial sum is not visible.  The
    two elements of the local arrays ip[2], ip_tmp[2], iip[2] are two blocks [la], [lb] (nothing
    steps from one to the other).  The sum over the nodes (QDPInternal::globalSum, globalSumArray) is
    the sum of the list of the nodes' contributions. *)
From Coq Require Import ZArith List String Bool.
From Verif Require Import Base SetModel EvalSpec KernLang KernSpec KernBlas FuseModel.
Import ListNotations.
Local Open Scope string_scope.
Local Open Scope Z_scope.

Section Norm.
  Context {R : Type} (rO : R) (radd rmul rsub : R -> R -> R) (ropp : R -> R).
  (** The blocks of the two locals, and what is in them before they are written. *)
  Variables (la lb : nat) (junk : R).

  Definition load (m : memory R) (p : ptr) : res R := of_option (m (fst p) (snd p)).

  (** local_sumsq(&l, x, n) and reading l. *)
  Definition sumsq_call (x : ptr) (n : Z) (m : memory R) : res (R * memory R) :=
    bind (call rO radd rmul rsub ropp local_sumsq [("Out", (la, 0)); ("In", x)] [("n_3vec", n)] m) (fun m' =>
    bind (load m' (la, 0)) (fun v => Val (v, m'))).
  (** l_vcdot(&(ip[0]), &(ip[1]), v1, v2, n) and reading ip. *)
  Definition vcdot_call (x y : ptr) (n : Z) (m : memory R) : res ((R * R) * memory R) :=
    bind (call rO radd rmul rsub ropp l_vcdot
            [("Out_re", (la, 0)); ("Out_im", (lb, 0)); ("V1", x); ("V2", y)] [("n_3vec", n)] m) (fun m' =>
    bind (load m' (la, 0)) (fun re => bind (load m' (lb, 0)) (fun im => Val ((re, im), m')))).
  (** l_vcdot_real(&ip_re, v1, v2, n) and reading ip_re. *)
  Definition vcdot_real_call (x y : ptr) (n : Z) (m : memory R) : res (R * memory R) :=
    bind (call rO radd rmul rsub ropp l_vcdot_real [("Out", (la, 0)); ("V1", x); ("V2", y)] [("n_3vec", n)] m) (fun m' =>
    bind (load m' (la, 0)) (fun v => Val (v, m'))).

  (** &(x.elem(i).elem(0).elem(0).real()) *)
  Definition at_site (x : ptr) (i : Z) : ptr := forward x (24 * i).
  Definition cadd (a b : R * R) : R * R := (radd (fst a) (fst b), radd (snd a) (snd b)).

  (** for(j < numSiteTable) { i = tab[j]; kernel(&tmp, .. i .., 1); acc += tmp; }  2253-2260, 2370-2383, 2472-2484. *)
  Fixpoint site_loop {A} (add : A -> A -> A) (kern : Z -> memory R -> res (A * memory R)) (tab : list nat) (acc : A)
      (m : memory R) : res A :=
    match tab with
    | [] => Val acc
    | i :: r => bind (kern (Z.of_nat i) m) (fun p => site_loop add kern r (add acc (fst p)) (snd p))
    end.

  (** The two branches, common to all: 2231-2246 and 2248-2265; 2336-2360 and 2362-2391; 2443-2464 and 2466-2488.
      [kern i n]: the kernel on [n] sites from site [i]; [m1], [m2]: the memory with the locals of the branch. *)
  Definition reduce {A} (add : A -> A -> A) (zero : A) (kern : Z -> Z -> memory R -> res (A * memory R)) (s : subset)
      (m1 m2 : memory R) : res A :=
    if s_ordRep s
    then bind (kern (s_start s) (s_end s - s_start s + 1) m1) (fun p => Val (fst p))
    else site_loop add (fun i => kern i 1) (s_table s) zero m2.

  Definition one_local (v : R) (m : memory R) : memory R := poke m la 0 v.
  Definition two_locals (v : R) (m : memory R) : memory R := poke (poke m la 0 v) lb 0 v.

  (** norm2(s1, s), 2223-2266. *)
  Definition norm2_node (x : ptr) (s : subset) (m : memory R) : res R :=
    reduce radd rO (fun i n => sumsq_call (at_site x i) n) s (one_local rO m) (one_local rO m).
  (** innerProduct(v1, v2, s), 2329-2392. *)
  Definition innerProduct_node (x y : ptr) (s : subset) (m : memory R) : res (R * R) :=
    reduce cadd (rO, rO) (fun i n => vcdot_call (at_site x i) (at_site y i) n) s (two_locals rO m) (two_locals junk m).
  (** innerProductReal(v1, v2, s), 2436-2488. *)
  Definition innerProductReal_node (x y : ptr) (s : subset) (m : memory R) : res R :=
    reduce radd rO (fun i n => vcdot_real_call (at_site x i) (at_site y i) n) s (one_local rO m) (one_local junk m).

  (** Without a subset: the ordered call on [all], 2269-2288, 2291-2325, 2398-2433. *)
  Definition all_call {A} (kern : Z -> Z -> memory R -> res (A * memory R)) (all : subset) (m : memory R) : res (A * memory R) :=
    kern (s_start all) (s_end all - s_start all + 1) m.
  Definition norm2_all (x : ptr) (all : subset) (m : memory R) : res R :=
    bind (all_call (fun i n => sumsq_call (at_site x i) n) all (one_local rO m)) (fun p => Val (fst p)).
  Definition innerProduct_all (x y : ptr) (all : subset) (m : memory R) : res (R * R) :=
    bind (all_call (fun i n => vcdot_call (at_site x i) (at_site y i) n) all (two_locals rO m)) (fun p => Val (fst p)).
  Definition innerProductReal_all (x y : ptr) (all : subset) (m : memory R) : res R :=
    bind (all_call (fun i n => vcdot_real_call (at_site x i) (at_site y i) n) all (one_local rO m)) (fun p => Val (fst p)).

  (** Arrays of fields: the loop over the elements of the first array, 2500-2511, 2536-2551, 2583-2597. *)
  Fixpoint array_loop {A} (add : A -> A -> A) (kern : nat -> memory R -> res (A * memory R)) (ks : list nat) (acc : A)
      (m : memory R) : res A :=
    match ks with
    | [] => Val acc
    | k :: r => bind (kern k m) (fun p => array_loop add kern r (add acc (fst p)) (snd p))
    end.
  (** norm2(multi1d), 2491-2514; lltmp is not initialised. *)
  Definition norm2_array (xs : list ptr) (all : subset) (m : memory R) : res R :=
    array_loop radd (fun k m => bind (of_option (nth_error xs k)) (fun x =>
                       all_call (fun i n => sumsq_call (at_site x i) n) all (one_local junk m)))
      (List.seq 0 (List.length xs)) rO m.
  (** innerProduct(multi1d, multi1d), 2517-2564; reading v2[n] behind the end of v2 is undefined. *)
  Definition innerProduct_array (xs ys : list ptr) (all : subset) (m : memory R) : res (R * R) :=
    array_loop cadd (fun k m => bind (of_option (nth_error xs k)) (fun x => bind (of_option (nth_error ys k)) (fun y =>
                       all_call (fun i n => vcdot_call (at_site x i) (at_site y i) n) all (two_locals rO m))))
      (List.seq 0 (List.length xs)) (rO, rO) m.
  (** innerProductReal(multi1d, multi1d), 2567-2611. *)
  Definition innerProductReal_array (xs ys : list ptr) (all : subset) (m : memory R) : res R :=
    array_loop radd (fun k m => bind (of_option (nth_error xs k)) (fun x => bind (of_option (nth_error ys k)) (fun y =>
                       all_call (fun i n => vcdot_real_call (at_site x i) (at_site y i) n) all (one_local rO m))))
      (List.seq 0 (List.length xs)) rO m.

  (** All nodes: the contribution of each, then the global sum. *)
  Definition on_nodes {N A} (add : A -> A -> A) (zero : A) (f : N -> res A) (nodes : list N) : res A :=
    bind (mapM f nodes) (fun l => Val (EvalSpec.total zero add l)).
End Norm.

(** C80: norm2, innerProduct and innerProductReal of lattice fermions. *)
From Coq Require Import ZArith String List Bool Lia Ring Permutation Sorted.
From Verif Require Import Base LayoutModel LayoutSpec LayoutProofs LayoutOk SetModel SetSpec SetProofs EvalSpec EvalProofs RingProofs KernLang KernSpec FuseModel FuseSpec PropFuse.
From Verif Require Import NormModel NormSpec NormProofs.
Import ListNotations.
Local Open Scope Z_scope.

Lemma on_nodes_ok {N A} (add : A -> A -> A) zero (f : N -> res A) g nodes :
  (forall n, In n nodes -> f n = Val (g n)) -> on_nodes add zero f nodes = Val (EvalSpec.total zero add (map g nodes)).
Proof. intros H. unfold on_nodes. rewrite (mapM_Val f g nodes H). reflexivity. Qed.

Lemma total_pairs {A R} (rO : R) radd (f g : A -> R) l :
  EvalSpec.total (rO, rO) (cadd radd) (map (fun a => (f a, g a)) l) = (EvalSpec.total rO radd (map f l), EvalSpec.total rO radd (map g l)).
Proof. induction l as [|a l IH]; [reflexivity|]. cbn [map]. rewrite !total_cons, IH. reflexivity. Qed.

(** On every node, whatever the subset is like there and whatever the locals contain. *)
Theorem C80_subsets :
  forall (R : Type) (rO rI : R) (radd rmul rsub : R -> R -> R) (ropp : R -> R),
  ring_theory rO rI radd rmul rsub ropp eq ->
  forall (la lb : nat) (junk : R) (nodes : list node), Forall (node_ok la lb) nodes ->
  let X (n : node) := value rO (n_mem n) (n_x n) in
  let Y (n : node) := value rO (n_mem n) (n_y n) in
  let Sum f := EvalSpec.total rO radd (map (fun n => over rO radd (s_table (n_sub n)) (f n)) nodes) in
  on_nodes radd rO (fun n => norm2_node rO radd rmul rsub ropp la (n_x n) (n_sub n) (n_mem n)) nodes =
    Val (Sum (fun n => site_norm rO radd rmul (X n))) /\
  on_nodes radd rO (fun n => innerProductReal_node rO radd rmul rsub ropp la junk (n_x n) (n_y n) (n_sub n) (n_mem n)) nodes =
    Val (Sum (fun n => site_re rO radd rmul (X n) (Y n))) /\
  on_nodes (cadd radd) (rO, rO) (fun n => innerProduct_node rO radd rmul rsub ropp la lb junk (n_x n) (n_y n) (n_sub n) (n_mem n)) nodes =
    Val (Sum (fun n => site_re rO radd rmul (X n) (Y n)), Sum (fun n => site_im rO radd rmul rsub (X n) (Y n))).
Proof.
  intros R rO rI radd rmul rsub ropp RT la lb junk nodes H X Y Sum. rewrite Forall_forall in H.
  split; [|split].
  - apply on_nodes_ok. intros n I. eapply norm2_node_ok; eauto.
  - apply on_nodes_ok. intros n I. eapply innerProductReal_node_ok; eauto.
  - unfold Sum. rewrite <- total_pairs. apply on_nodes_ok. intros n I. eapply innerProduct_node_ok; eauto.
Qed.
Print Assumptions C80_subsets.

(** Without a subset. *)
Theorem C80_whole_lattice :
  forall (R : Type) (rO rI : R) (radd rmul rsub : R -> R -> R) (ropp : R -> R),
  ring_theory rO rI radd rmul rsub ropp eq ->
  forall (la lb : nat) (nodes : list node), Forall (node_ok la lb) nodes ->
  (forall n, In n nodes -> (0 < n_vol n)%nat /\ s_table (n_sub n) = List.seq 0 (n_vol n)) ->
  let X (n : node) := value rO (n_mem n) (n_x n) in
  let Y (n : node) := value rO (n_mem n) (n_y n) in
  let Sum f := EvalSpec.total rO radd (map (fun n => over rO radd (List.seq 0 (n_vol n)) (f n)) nodes) in
  on_nodes radd rO (fun n => norm2_all rO radd rmul rsub ropp la (n_x n) (n_sub n) (n_mem n)) nodes =
    Val (Sum (fun n => site_norm rO radd rmul (X n))) /\
  on_nodes radd rO (fun n => innerProductReal_all rO radd rmul rsub ropp la (n_x n) (n_y n) (n_sub n) (n_mem n)) nodes =
    Val (Sum (fun n => site_re rO radd rmul (X n) (Y n))) /\
  on_nodes (cadd radd) (rO, rO) (fun n => innerProduct_all rO radd rmul rsub ropp la lb (n_x n) (n_y n) (n_sub n) (n_mem n)) nodes =
    Val (Sum (fun n => site_re rO radd rmul (X n) (Y n)), Sum (fun n => site_im rO radd rmul rsub (X n) (Y n))).
Proof.
  intros R rO rI radd rmul rsub ropp RT la lb nodes H A X Y Sum. rewrite Forall_forall in H.
  split; [|split].
  - apply on_nodes_ok. intros n I. rewrite <- (proj2 (A n I)). eapply norm2_all_ok; eauto. exact (A n I).
  - apply on_nodes_ok. intros n I. rewrite <- (proj2 (A n I)). eapply innerProductReal_all_ok; eauto. exact (A n I).
  - unfold Sum. rewrite <- total_pairs. apply on_nodes_ok. intros n I. rewrite <- (proj2 (A n I)).
    eapply innerProduct_all_ok; eauto. exact (A n I).
Qed.
Print Assumptions C80_whole_lattice.

(** ** On the lattice: the result depends only on the field and the colouring, not on the layout. *)
Lemma total_filter {A B} (zero : A) add (M : comm_monoid zero add) (p : B -> bool) (f : B -> A) l :
  EvalSpec.total zero add (map f (filter p l)) = EvalSpec.total zero add (map (fun b => if p b then f b else zero) l).
Proof.
  induction l as [|b l IH]; [reflexivity|]. cbn [filter map]. rewrite total_cons, <- IH.
  destruct (p b); cbn [map]; [apply total_cons|]. now rewrite (cm_zero _ _ M).
Qed.

Lemma colour_total {A} (zero : A) add (M : comm_monoid zero add) lay num colour cb (subs : nat -> list subset) (f : list nat -> A) (g : nat -> nat -> A) :
  layout_ok lay -> (cb < num)%nat ->
  (forall q, (q < l_nodes lay)%nat ->
     set_make lay q {| sf_num := num; sf_col := fun c => Val (colour c) |} = Val (subs q)) ->
  (forall q i, (q < l_nodes lay)%nat -> (i < l_sites lay)%nat -> g q i = f (l_coord lay q i)) ->
  forall s0 : subset,
  EvalSpec.total zero add (map (fun q => EvalSpec.total zero add (map (g q) (s_table (nth cb (subs q) s0)))) (List.seq 0 (l_nodes lay)))
  = box_sum zero add (l_size lay) (fun c => if colour c =? Z.of_nat cb then f c else zero).
Proof.
  intros Hl Hcb Mk Hg s0. rewrite <- (all_nodes_sum M lay) by exact Hl. f_equal. apply map_ext_in. intros q Hq. apply in_seq in Hq.
  assert (Hq' : (q < l_nodes lay)%nat) by lia. specialize (Mk q Hq').
  assert (Nth : exists s, nth_error (subs q) cb = Some s /\ NoDup (s_table s) /\
            forall i, In i (s_table s) <-> (i < l_sites lay)%nat /\ colour (l_coord lay q i) = Z.of_nat cb).
  { destruct (C06_all lay q num colour Hl Hq') as [Good Bad].
    assert (Rg : forall i, (i < l_sites lay)%nat -> 0 <= colour (l_coord lay q i) < Z.of_nat num).
    { intros i Hi. destruct (Z_le_dec 0 (colour (l_coord lay q i))), (Z_lt_dec (colour (l_coord lay q i)) (Z.of_nat num)); try lia;
        (assert (E : set_make lay q {| sf_num := num; sf_col := fun c => Val (colour c) |} = Abort) by (apply Bad; exists i; split; [exact Hi|lia]); congruence). }
    destruct (Good Rg) as (ss & Mk' & (Len & P) & _). assert (ss = subs q) by congruence. subst ss.
    destruct (nth_error (subs q) cb) as [s|] eqn:E.
    - exists s. split; [reflexivity|]. destruct (P cb s E) as [Srt Mem]. split; [|exact Mem].
      clear -Srt. induction Srt; constructor; auto. intros I. rewrite Forall_forall in H. specialize (H _ I). lia.
    - apply nth_error_None in E. lia. }
  destruct Nth as (s & Ns & ND & Mem). rewrite (nth_error_nth _ _ s0 Ns).
  assert (P : Permutation (s_table s) (filter (fun i => colour (l_coord lay q i) =? Z.of_nat cb) (List.seq 0 (l_sites lay)))).
  { apply NoDup_Permutation; [exact ND|apply NoDup_filter, seq_NoDup|]. intros i. rewrite filter_In, in_seq, Z.eqb_eq, Mem. intuition lia. }
  rewrite (total_perm M _ _ (Permutation_map (g q) P)), (total_filter zero add M). f_equal. apply map_ext_in. intros i Hi. apply in_seq in Hi.
  destruct (_ =? _); [apply Hg; lia|reflexivity].
Qed.

(** [psi] and [chi] are the fields as functions of the coordinates; [set_make] builds the subset of colour [cb] on
    each node of any layout. *)
Theorem C80_on_the_lattice :
  forall (R : Type) (rO rI : R) (radd rmul rsub : R -> R -> R) (ropp : R -> R),
  ring_theory rO rI radd rmul rsub ropp eq ->
  forall (lay : layout) (num cb : nat) (colour : list nat -> Z) (subs : nat -> list subset) (s0 : subset)
         (la lb : nat) (junk : R) (mem : nat -> memory R) (x y : nat -> ptr) (psi chi : list nat -> @vec R),
  layout_ok lay -> (cb < num)%nat -> la <> lb ->
  (forall q, (q < l_nodes lay)%nat ->
     set_make lay q {| sf_num := num; sf_col := fun c => Val (colour c) |} = Val (subs q) /\
     holds rO lay q (mem q) (x q) psi /\ holds rO lay q (mem q) (y q) chi /\
     fst (x q) <> la /\ fst (x q) <> lb /\ fst (y q) <> la /\ fst (y q) <> lb) ->
  let s q := nth cb (subs q) s0 in
  let Sum f := box_sum rO radd (l_size lay) (fun c => if colour c =? Z.of_nat cb then f c else rO) in
  let re a b := EvalSpec.total rO radd (map (fun k => radd (rmul (a (2 * k)) (b (2 * k))) (rmul (a (2 * k + 1)) (b (2 * k + 1))))
                                  [0;1;2;3;4;5;6;7;8;9;10;11]) in
  let im a b := EvalSpec.total rO radd (map (fun k => rsub (rmul (a (2 * k)) (b (2 * k + 1))) (rmul (a (2 * k + 1)) (b (2 * k))))
                                  [0;1;2;3;4;5;6;7;8;9;10;11]) in
  on_nodes radd rO (fun q => norm2_node rO radd rmul rsub ropp la (x q) (s q) (mem q)) (List.seq 0 (l_nodes lay)) =
    Val (Sum (fun c => re (psi c) (psi c))) /\
  on_nodes radd rO (fun q => innerProductReal_node rO radd rmul rsub ropp la junk (x q) (y q) (s q) (mem q)) (List.seq 0 (l_nodes lay)) =
    Val (Sum (fun c => re (psi c) (chi c))) /\
  on_nodes (cadd radd) (rO, rO) (fun q => innerProduct_node rO radd rmul rsub ropp la lb junk (x q) (y q) (s q) (mem q)) (List.seq 0 (l_nodes lay)) =
    Val (Sum (fun c => re (psi c) (chi c)), Sum (fun c => im (psi c) (chi c))).
Proof.
  intros R rO rI radd rmul rsub ropp RT lay num cb colour subs s0 la lb junk mem x y psi chi Hl Hcb Nab H s Sum re im.
  pose proof (radd_cm rO rI radd rmul rsub ropp RT) as M.
  set (nd := fun q => mk_node _ (mem q) (l_sites lay) (s q) (x q) (y q)).
  assert (Ok : forall q, (q < l_nodes lay)%nat -> node_ok la lb (nd q)).
  { intros q Hq. destruct (H q Hq) as (Mk & (Hx & _) & (Hy & _) & A & B & C & D).
    assert (G : good_subset (l_sites lay) (s q)); [|split; [exact G|]; repeat split; assumption].
    assert (exists t, nth_error (subs q) cb = Some t) as (t & Ht).
    { destruct (nth_error (subs q) cb) eqn:E; [eauto|]. apply nth_error_None in E.
      apply set_make_inv in Mk as (col & _ & Es). rewrite Es, map_length, seq_length in E. cbn [sf_num] in E. lia. }
    unfold s. rewrite (nth_error_nth _ _ s0 Ht). eapply C77_built_subsets; eauto. }
  assert (Vx : forall q i j, (q < l_nodes lay)%nat -> (i < l_sites lay)%nat -> 0 <= j < 24 ->
            site (value rO (mem q) (x q)) i j = psi (l_coord lay q i) j) by (intros q i j Hq; apply (H q Hq)).
  assert (Vy : forall q i j, (q < l_nodes lay)%nat -> (i < l_sites lay)%nat -> 0 <= j < 24 ->
            site (value rO (mem q) (y q)) i j = chi (l_coord lay q i) j) by (intros q i j Hq; apply (H q Hq)).
  assert (Tot : forall (g : nat -> nat -> R) f,
     (forall q i, (q < l_nodes lay)%nat -> (i < l_sites lay)%nat -> g q i = f (l_coord lay q i)) ->
     EvalSpec.total rO radd (map (fun q => over rO radd (s_table (s q)) (g q)) (List.seq 0 (l_nodes lay))) = Sum f).
  { intros g f Hg. apply (colour_total rO radd M lay num colour cb subs f g Hl Hcb); [|exact Hg]. intros q Hq. apply (H q Hq). }
  assert (Twelve : forall (f g : Z -> R), (forall k, 0 <= k < 12 -> f k = g k) ->
     map f [0;1;2;3;4;5;6;7;8;9;10;11] = map g [0;1;2;3;4;5;6;7;8;9;10;11]).
  { intros f g E. apply map_ext_in. intros k Ik. apply E. cbn [In] in Ik. lia. }
  assert (Tn : forall q i, (q < l_nodes lay)%nat -> (i < l_sites lay)%nat ->
            site_norm rO radd rmul (value rO (mem q) (x q)) i = re (psi (l_coord lay q i)) (psi (l_coord lay q i))).
  { intros q i Hq Hi. unfold site_norm, re. f_equal. apply Twelve. intros k Hk. rewrite !Vx by (assumption || lia). reflexivity. }
  assert (Tr : forall q i, (q < l_nodes lay)%nat -> (i < l_sites lay)%nat ->
            site_re rO radd rmul (value rO (mem q) (x q)) (value rO (mem q) (y q)) i = re (psi (l_coord lay q i)) (chi (l_coord lay q i))).
  { intros q i Hq Hi. unfold site_re, re. f_equal. apply Twelve. intros k Hk. rewrite !Vx, !Vy by (assumption || lia). reflexivity. }
  assert (Ti : forall q i, (q < l_nodes lay)%nat -> (i < l_sites lay)%nat ->
            site_im rO radd rmul rsub (value rO (mem q) (x q)) (value rO (mem q) (y q)) i = im (psi (l_coord lay q i)) (chi (l_coord lay q i))).
  { intros q i Hq Hi. unfold site_im, im. f_equal. apply Twelve. intros k Hk. rewrite !Vx, !Vy by (assumption || lia). reflexivity. }
  split; [|split].
  - rewrite <- (Tot _ _ Tn). apply on_nodes_ok. intros q Iq. apply in_seq in Iq.
    apply (norm2_node_ok rO rI radd rmul rsub ropp RT la lb (nd q)). apply Ok. lia.
  - rewrite <- (Tot _ _ Tr). apply on_nodes_ok. intros q Iq. apply in_seq in Iq.
    apply (innerProductReal_node_ok rO rI radd rmul rsub ropp RT la lb junk (nd q)). apply Ok. lia.
  - rewrite <- (Tot _ _ Tr), <- (Tot _ _ Ti), <- total_pairs. apply on_nodes_ok. intros q Iq. apply in_seq in Iq.
    apply (innerProduct_node_ok rO rI radd rmul rsub ropp RT la lb junk (nd q)). apply Ok. lia.
Qed.
Print Assumptions C80_on_the_lattice.

(** Arrays of fields, on one node. *)
Theorem C80_arrays :
  forall (R : Type) (rO rI : R) (radd rmul rsub : R -> R -> R) (ropp : R -> R),
  ring_theory rO rI radd rmul rsub ropp eq ->
  forall (la lb : nat) (junk : R) (m : memory R) (V : nat) (all : subset) (xs ys : list ptr),
  good_subset V all -> (0 < V)%nat -> s_table all = List.seq 0 V -> la <> lb ->
  Forall (fun x => has m x (24 * Z.of_nat V) /\ fst x <> la /\ fst x <> lb) (xs ++ ys) ->
  let sum {A} f (l : list A) := EvalSpec.total rO radd (map f l) in
  let W x := value rO m x in
  norm2_array rO radd rmul rsub ropp la junk xs all m =
    Val (sum (fun x => over rO radd (List.seq 0 V) (site_norm rO radd rmul (W x))) xs) /\
  (List.length ys = List.length xs ->
   let re p := over rO radd (List.seq 0 V) (site_re rO radd rmul (W (fst p)) (W (snd p))) in
   let im p := over rO radd (List.seq 0 V) (site_im rO radd rmul rsub (W (fst p)) (W (snd p))) in
   innerProductReal_array rO radd rmul rsub ropp la xs ys all m = Val (sum re (combine xs ys)) /\
   innerProduct_array rO radd rmul rsub ropp la lb xs ys all m = Val (sum re (combine xs ys), sum im (combine xs ys))).
Proof.
  intros R rO rI radd rmul rsub ropp RT la lb junk m V all xs ys G HV E Nab F sum W.
  apply Forall_app in F as [Fx Fy]. rewrite <- E. split.
  - apply (norm2_array_ok rO rI radd rmul rsub ropp RT la lb junk m V all G HV E Nab xs Fx).
  - intros L. split.
    + apply (innerProductReal_array_ok rO rI radd rmul rsub ropp RT la lb m V all G HV E Nab xs ys Fx Fy L).
    + apply (innerProduct_array_ok rO rI radd rmul rsub ropp RT la lb m V all G HV E Nab xs ys Fx Fy L).
Qed.
Print Assumptions C80_arrays.

(** The inner product of arrays of different lengths is not rejected: a longer second array is cut off, a shorter
    one is read behind its end. *)
Theorem C80_array_lengths_refuted :
  exists (m : memory Z) (all : subset) (x y z : ptr),
    good_subset 1 all /\ s_table all = [0%nat] /\ has m x 24 /\ has m y 24 /\ has m z 24 /\
    innerProductReal_array 0 Z.add Z.mul Z.sub Z.opp 9 [x] [y; z] all m = Val 24 /\
    innerProductReal_array 0 Z.add Z.mul Z.sub Z.opp 9 [x; z] [y] all m = Undef.
Proof.
  pose (m := fun (b : nat) (o : Z) => if (0 <=? o) && (o <? 24) then Some 1 else None).
  assert (H : forall b, has m (b, 0) 24).
  { intros b i Hi. unfold cell, m. cbn [fst snd]. destruct (Z.leb_spec 0 (0 + i)); [|lia]. destruct (Z.ltb_spec (0 + i) 24); [discriminate|lia]. }
  exists m, {| s_ordRep := true; s_start := 0; s_end := 0; s_table := [0%nat] |}, (1%nat, 0), (2%nat, 0), (3%nat, 0).
  split.
  { split; [|split; repeat constructor; auto].
    split; [|split]; cbn.
    + split; [|auto]. intros _. exists 0%nat, 0%nat. reflexivity.
    + intros _. exists 0%nat, 0%nat. repeat split; auto.
    + discriminate. }
  split; [reflexivity|]. split; [apply H|]. split; [apply H|]. split; [apply H|].
  split; vm_compute; reflexivity.
Qed.
Print Assumptions C80_array_lengths_refuted.

(** An 8 x 2 x 1 lattice on two nodes, odd sites: a different number in every component. *)
Definition case_lay : layout := par_layout CB2 (lex_machine [2;1;1]%nat) [8;2;1]%nat.
Definition case_psi (c : list nat) : @vec Z := fun j => 100 * Z.of_nat (get c 0) + 10 * Z.of_nat (get c 1) + j.
Definition case_mem (q : nat) : memory Z := fun b o =>
  if (0 <=? o) && (o <? 24 * 8) then
    match b with
    | 1%nat => Some (case_psi (l_coord case_lay q (Z.to_nat (o / 24))) (o mod 24))
    | _ => Some 1
    end
  else None.
Definition case_col (c : list nat) : Z := Z.of_nat ((get c 0 + get c 1) mod 2).
Example C80_case :
  match set_make case_lay 0 {| sf_num := 2; sf_col := fun c => Val (case_col c) |},
        set_make case_lay 1 {| sf_num := 2; sf_col := fun c => Val (case_col c) |} with
  | Val ss0, Val ss1 =>
      let subs q := if (q =? 0)%nat then ss0 else ss1 in
      let s0 := {| s_ordRep := false; s_start := -1; s_end := -1; s_table := [] |} in
      let s q := nth 1 (subs q) s0 in
      l_nodes case_lay = 2%nat /\ l_sites case_lay = 8%nat /\ s_table (s 1%nat) = [4; 5; 6; 7]%nat /\
      on_nodes Z.add 0 (fun q => norm2_node 0 Z.add Z.mul Z.sub Z.opp 9 (1%nat, 0) (s q) (case_mem q)) [0; 1]%nat =
        Val (box_sum 0 Z.add [8; 2; 1]%nat (fun c => if case_col c =? 1 then
               EvalSpec.total 0 Z.add (map (fun j => case_psi c j * case_psi c j) (map Z.of_nat (List.seq 0 24))) else 0)) /\
      (forall q i j, (i < 8)%nat -> 0 <= j < 24 ->
         value 0 (case_mem q) (1%nat, 0) (24 * Z.of_nat i + j) = case_psi (l_coord case_lay q i) j)
  | _, _ => False
  end.
Proof.
  destruct (set_make case_lay 0 _) as [ss0| |] eqn:E0; [|vm_compute in E0; discriminate..].
  destruct (set_make case_lay 1 _) as [ss1| |] eqn:E1; [|vm_compute in E1; discriminate..].
  vm_compute in E0, E1. injection E0 as <-. injection E1 as <-. cbv zeta.
  split; [reflexivity|]. split; [reflexivity|]. split; [reflexivity|]. split; [vm_compute; reflexivity|].
  intros q i j Hi Hj. unfold value, cell, case_mem. cbn [fst snd].
  replace (0 <=? 0 + (24 * Z.of_nat i + j)) with true by (symmetry; apply Z.leb_le; lia).
  replace (0 + (24 * Z.of_nat i + j) <? 24 * 8) with true by (symmetry; apply Z.ltb_lt; lia). cbn [andb].
  replace ((0 + (24 * Z.of_nat i + j)) / 24) with (Z.of_nat i) by (apply Z.div_unique with j; lia).
  replace ((0 + (24 * Z.of_nat i + j)) mod 24) with j by (apply Z.mod_unique with (Z.of_nat i); lia).
  rewrite Nat2Z.id. reflexivity.
Qed.

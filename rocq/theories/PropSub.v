(** C81: fields narrowed to a subset. *)
From Coq Require Import List Arith Bool Lia.
From Verif Require Import Base SubModel SubSpec SubProofs SubSim SubStep SubAssign.
Import ListNotations.
Local Open Scope nat_scope.

(** Any program over lattices and sub-lattices (declarations, views, gathers, copies,
    setSubset, assignments of every kind, products, destructors, in any order): memory ends up
    showing exactly what the variables mean, the program aborts or is undefined exactly when
    its meaning is, and every live block belongs to exactly one live object. *)
Theorem C81_programs : forall (T : Type) (V : nat) (ops : list (op T)),
  Forall (tables V) ops ->
  match run V init ops, meaning start ops with
  | Val c, Val a => shows V c a /\ no_leak c
  | Abort, Abort => True
  | Undef, Undef => True
  | _, _ => False
  end.
Proof.
  intros T V ops H. pose proof (run_ok V ops init start (inv_init V) H) as R.
  unfold both in R.
  destruct (run V init ops) as [c| |], (meaning start ops) as [a| |]; auto.
  split; [apply (i_shows _ _ _ R)|eapply inv_no_leak; eauto].
Qed.

(** After all objects are destroyed nothing is left in memory. *)
Theorem C81_all_freed : forall (T : Type) (V : nat) (ops : list (op T)) c,
  Forall (tables V) ops -> run V init ops = Val c ->
  Forall (fun o => o = None) (lat c) -> Forall (fun o => o = None) (obj c) ->
  forall b, blocks (mem c) b = None.
Proof.
  intros T V ops c H E L O b. pose proof (C81_programs T V ops H) as P. rewrite E in P.
  destruct (meaning start ops) as [a| |]; try contradiction. destruct P as [_ [_ N]].
  destruct (blocks (mem c) b) eqn:B; auto. exfalso.
  assert (In b (owned c)) as Hb by (apply N; congruence).
  unfold owned in Hb. rewrite Forall_forall in L, O.
  apply in_app_or in Hb. destruct Hb as [Hb|Hb]; apply in_flat_map in Hb; destruct Hb as (o & Ho & Hb).
  - rewrite (L o Ho) in Hb. destruct Hb.
  - rewrite (O o Ho) in Hb. destruct Hb.
Qed.

(** Assigning one sub-lattice to another of the same subset copies every site's value. *)
Theorem C81_same_subset : forall (T : Type) (ss : list nat) (g f : field T) i,
  NoDup ss -> by_position ss ss g f i = if mem_of i ss then g i else f i.
Proof.
  intros T ss g f i N. destruct (mem_of i ss) eqn:E.
  - apply mem_of_In in E. destruct (In_nth_error _ _ E) as [j Hj].
    eapply by_position_in; eauto.
  - apply by_position_out. intros H. apply mem_of_In in H. congruence.
Qed.

(** Of different subsets with equally many sites it is accepted as well, and values move to
    other sites: here the values of sites 1 and 3 end up on sites 0 and 2. *)
Definition other_subset : list (op nat) :=
  [NewLattice; View 0 [1]; Assign 0 (fun _ _ => Some 101); View 0 [3];
   Assign 1 (fun _ _ => Some 103); Gather [1; 3] 0; Declare; SetSubset 3 [0; 2]; AssignSub 3 2].
Ltac tables_tac :=
  repeat apply Forall_cons; try apply Forall_nil; cbn; try exact Logic.I;
  (split; [repeat constructor; cbn; intuition lia|intros i Hi; cbn in Hi; intuition lia]).
Theorem C81_other_subset_refuted :
  Forall (tables 4) other_subset /\
  exists c a f, run 4 init other_subset = Val c /\ meaning start other_subset = Val a /\
    nth_error (subs a) 3 = Some (Some (Own [0; 2] f)) /\ f 0 = Some 101 /\ f 2 = Some 103.
Proof.
  split; [unfold other_subset; tables_tac|].
  do 3 eexists. split; [reflexivity|]. split; [reflexivity|]. split; [reflexivity|].
  split; reflexivity.
Qed.

(** a[s] = b[s], x = b[s] and a[s] = x stop the program. *)
Theorem C81_view_assign_refuted : forall (T : Type) (V : nat) (ops : list (op T)) a k r x y,
  Forall (tables V) ops -> meaning start ops = Val a ->
  nth_error (subs a) k = Some (Some x) -> nth_error (subs a) r = Some (Some y) ->
  (exists l ss, x = Alias l ss) \/ (exists l ss, y = Alias l ss) ->
  run V init (ops ++ [AssignSub k r]) = Abort.
Proof.
  intros T V ops a k r x y H E Ek Er D.
  pose proof (C81_programs T V (ops ++ [AssignSub k r])) as P.
  assert (M : meaning start (ops ++ [AssignSub k r]) = Abort).
  { assert (G : forall o s, meaning s o = Val a -> meaning s (o ++ [AssignSub k r]) = Abort).
    { induction o as [|p o IH]; intros s; cbn [meaning app].
      - intros Es. injection Es as ->. unfold bind, means, a_sub. rewrite Ek, Er. cbn [bind].
        destruct D as [(l & ss & ->)|(l & ss & ->)]; auto. destruct x; auto.
      - destruct (means s p) as [s'| |]; cbn [bind]; try discriminate. apply IH. }
    apply G. exact E. }
  rewrite M in P. destruct (run V init (ops ++ [AssignSub k r])); auto; exfalso; apply P;
    apply Forall_app; split; auto; repeat constructor.
Qed.

(** ** Sums *)

Section Sum.
  Context {T : Type}.
  Variables (zero : T) (add : T -> T -> T).
  Hypothesis add_assoc : forall x y z, add x (add y z) = add (add x y) z.
  Hypothesis add_0_l : forall x, add zero x = x.
  Hypothesis add_0_r : forall x, add x zero = x.

  Lemma total_map (f : nat -> T) (t : nat -> nat) js :
    total zero add f (map t js) = total zero add (fun j => f (t j)) js.
  Proof using Type. induction js; cbn; congruence. Qed.

  Lemma sum_loop (h : heap T) b l (val : nat -> T) js :
    blocks h b = Some l -> (forall j, In j js -> nth_error l j = Some (Some (val j))) ->
    forall d, fold_left (fun d j => bind d (fun d => bind (load h b j) (fun x =>
                 match x with Some x => Val (add d x) | None => Undef end))) js (Val d)
              = Val (add d (total zero add val js)).
  Proof using add_assoc add_0_r.
    intros Hb. induction js as [|j js IH]; intros Hv d; cbn.
    - rewrite add_0_r. auto.
    - unfold load at 2. rewrite Hb, (Hv j (or_introl eq_refl)). cbn.
      rewrite IH by (intros; apply Hv; right; auto). rewrite add_assoc. auto.
  Qed.

  Lemma total_ext (f g : nat -> T) ss : (forall i, In i ss -> f i = g i) ->
    total zero add f ss = total zero add g ss.
  Proof using Type.
    induction ss as [|i ss IH]; cbn; auto. intros H. rewrite (H i), IH; auto.
  Qed.
  Lemma total_tab f (ss : list nat) :
    total zero add (fun j => f (tab ss j)) (seq 0 (length ss)) = total zero add f ss.
  Proof using Type.
    rewrite <- total_map, map_tab. reflexivity.
  Qed.

  Lemma sum_owner h lats s ss (f : field T) v :
    shows_sub h lats (Some s) (Some (Own ss f)) -> (forall i, In i ss -> f i = Some (v i)) ->
    sum_sub zero add h s = Val (total zero add v ss).
  Proof using add_assoc add_0_l add_0_r.
    intros (b & l & -> & Hb & Hl & Hv) Hf. unfold sum_sub. cbn [pS pF deref of_option bind].
    rewrite (sum_loop h b l (fun j => v (tab ss j))); auto.
    - rewrite add_0_l, total_tab. auto.
    - intros j Hj. apply in_seq in Hj. assert (E : nth_error ss j = Some (tab ss j)) by (apply tab_lt; lia).
      rewrite (Hv _ _ E), Hf; auto. eapply nth_error_In; eauto.
  Qed.

  (** sum(x) for a sub-lattice with its own memory: the sum over the sites of its subset, over
      all nodes.  [nodes]: memory and object on each node; [contents]: the sites of the subset
      on each node and the values there. *)
  Theorem C81_sum : forall (nodes : list (heap T * sub)) (contents : list (list nat * (nat -> T))),
    Forall2 (fun n x => exists f, shows_sub (fst n) [] (Some (snd n)) (Some (Own (fst x) f)) /\
                                  forall i, In i (fst x) -> f i = Some (snd x i)) nodes contents ->
    sum_nodes zero add nodes =
    Val (fold_right (fun x d => add (total zero add (snd x) (fst x)) d) zero contents).
  Proof using add_assoc add_0_l add_0_r.
    intros nodes contents H. unfold sum_nodes.
    assert (G : forall d, fold_left (fun d n => bind d (fun d =>
                 bind (sum_sub zero add (fst n) (snd n)) (fun x => Val (add d x)))) nodes (Val d)
       = Val (add d (fold_right (fun x d => add (total zero add (snd x) (fst x)) d) zero contents))).
    { induction H as [|n x nodes contents (f & S & Hf) H IH]; intros d; cbn.
      - rewrite add_0_r. auto.
      - rewrite (sum_owner _ _ _ _ _ _ S Hf). cbn [bind]. rewrite IH, add_assoc. auto. }
    rewrite G, add_0_l. auto.
  Qed.

  (** innerProduct(x, a) = sum(localInnerProduct(x, a)) on one node, after any program: the sum
      over the subset of the products at each site. *)
  Theorem C81_inner_product : forall V (ops : list (op T)) c a k l ss f g (x y : nat -> T) (mul : T -> T -> T),
    Forall (tables V) ops -> run V init ops = Val c -> meaning start ops = Val a ->
    nth_error (subs a) k = Some (Some (Own ss f)) -> nth_error (lattices a) l = Some (Some g) ->
    (forall i, In i ss -> f i = Some (x i)) -> (forall i, In i ss -> g i = Some (y i)) ->
    exists c' s, step V c (LocalProduct k mul l) = Val c' /\
      obj c' = obj c ++ [Some s] /\
      sum_sub zero add (mem c') s = Val (total zero add (fun i => mul (x i) (y i)) ss).
  Proof using add_assoc add_0_l add_0_r.
    intros V ops c a k l ss f g x y mul H R M Ek El Hf Hg.
    pose proof (run_ok V ops init start (inv_init V) H) as B. rewrite R, M in B. cbn [both] in B.
    pose proof (product_ok V c a k mul l B) as P. cbn [means] in P.
    unfold a_sub, a_lat in P. rewrite Ek, El in P. cbn [bind] in P.
    set (p := fun i => match f i, g i with Some x, Some y => Some (mul x y) | _, _ => None end) in *.
    assert (Hp : forall i, In i ss -> p i = Some (mul (x i) (y i))).
    { intros i Hi. unfold p. rewrite Hf, Hg; auto. }
    assert (E : forallb (fun i => match p i with Some _ => true | None => false end) ss = true).
    { apply forallb_forall. intros i Hi. rewrite Hp; auto. }
    change (both V (step V c (LocalProduct k mul l))
              (if forallb (fun i => match p i with Some _ => true | None => false end) ss
               then Val (add_sub a (Own ss p)) else Undef)) in P.
    rewrite E in P.
    destruct (step V c (LocalProduct k mul l)) as [c'| |] eqn:S; try contradiction. cbn [both] in P.
    assert (O : exists h s, c' = new_obj c h s).
    { cbn [step] in S. destruct (the_obj c k) as [s0| |]; try discriminate. cbn [bind] in S.
      destruct (the_lat c l) as [r| |]; try discriminate. cbn [bind] in S.
      destruct (local_product (mem c) mul s0 r) as [[h s]| |]; try discriminate. cbn [bind] in S.
      injection S as <-. eauto. }
    destruct O as (h & s & ->). exists (new_obj c h s), s. split; auto. split; [reflexivity|].
    destruct (i_shows _ _ _ P) as [_ HO]. cbn [new_obj add_sub mem lat obj subs] in HO.
    pose proof (i_shows _ _ _ B) as [_ HO0].
    assert (L : length (obj c) = length (subs a)) by (eapply Forall2_len; exact HO0).
    pose proof (proj1 (Forall2_nth _ _ _) HO (length (obj c))) as Hl.
    rewrite nth_app_last, Nat.eqb_refl in Hl. rewrite L, nth_app_last, Nat.eqb_refl in Hl.
    cbn [at_both] in Hl. eapply sum_owner; eauto.
  Qed.

  (** sum(a[s]): the sum over the first sites in memory, as many as the subset has. *)
  Theorem C81_sum_view : forall V (ops : list (op T)) c a k l ss f s (v : nat -> T),
    Forall (tables V) ops -> run V init ops = Val c -> meaning start ops = Val a ->
    nth_error (obj c) k = Some (Some s) ->
    nth_error (subs a) k = Some (Some (Alias l ss)) -> nth_error (lattices a) l = Some (Some f) ->
    (forall i, i < V -> f i = Some (v i)) ->
    sum_sub zero add (mem c) s = Val (total zero add v (seq 0 (length ss))).
  Proof using add_assoc add_0_l add_0_r.
    intros V ops c a k l ss f s v H R M Es Ek El Hf.
    pose proof (run_ok V ops init start (inv_init V) H) as B. rewrite R, M in B. cbn [both] in B.
    pose proof (i_shows _ _ _ B) as [HL HO].
    destruct (both_at _ _ _ _ _ HO Es) as (x & Ex & Rx). rewrite Ek in Ex. injection Ex as <-.
    destruct Rx as (b & -> & [Rx|(Rx & _)]).
    2: { destruct (both_at _ _ _ _ _ HL Rx) as (y & Ey & Ry). rewrite El in Ey. injection Ey as <-.
         destruct Ry. }
    destruct (both_at _ _ _ _ _ HL Rx) as (y & Ey & Ry). rewrite El in Ey. injection Ey as <-.
    destruct Ry as (x & Hb & Hl & Hv).
    destruct (i_tab _ _ _ B k (Alias l ss) Ek) as [Nd Lt]. cbn [ss_of] in *.
    assert (Len : length ss <= V).
    { rewrite <- (seq_length V 0). apply NoDup_incl_length; auto.
      intros i Hi. apply in_seq. specialize (Lt i Hi). lia. }
    unfold sum_sub. cbn [view pS pF deref of_option bind].
    rewrite (sum_loop (mem c) b x v); auto.
    - rewrite add_0_l. auto.
    - intros j Hj. apply in_seq in Hj. rewrite Hv, Hf by lia. auto.
  Qed.
End Sum.

(** So sum(a[s]) is not the sum over s: sites 1 and 3 hold 20 and 40, sites 0 and 2 hold 1. *)
Definition view_sum : list (op nat) :=
  [NewLattice; View 0 [0; 1; 2; 3]; Assign 0 (fun _ _ => Some 1); View 0 [1]; View 0 [3];
   Assign 1 (fun _ _ => Some 20); Assign 2 (fun _ _ => Some 40); View 0 [1; 3]].
Theorem C81_sum_view_refuted :
  Forall (tables 4) view_sum /\
  exists c a s f, run 4 init view_sum = Val c /\ meaning start view_sum = Val a /\
    nth_error (obj c) 3 = Some (Some s) /\ nth_error (subs a) 3 = Some (Some (Alias 0 [1; 3])) /\
    nth_error (lattices a) 0 = Some (Some f) /\ f 1 = Some 20 /\ f 3 = Some 40 /\
    sum_sub 0 Nat.add (mem c) s = Val 21.
Proof.
  split; [unfold view_sum; tables_tac|].
  do 4 eexists. do 5 (split; [reflexivity|]). split; [reflexivity|]. split; reflexivity.
Qed.

(** ** Pokes and scalars *)

(** pokeColor / pokeSpin into a sub-lattice with memory of its own, whose subset has a site
    numbered beyond the number of its sites, reaches outside that memory. *)
Theorem C81_poke_owner_refuted :
  forall (T : Type) (c : st T) (u : assignment T) s ss b l,
  s = {| pF := Some b; owns := true; pS := Some ss |} ->
  blocks (mem c) b = Some l -> length l = length ss ->
  (exists i, In i ss /\ length ss <= i) ->
  poke c s u = Undef.
Proof.
  intros T c u s ss b l -> Hb Hl (i & Hi & Hge). unfold poke. cbn [pF pS deref of_option bind].
  unfold evaluate_on. destruct (In_nth_error _ _ Hi) as [j0 Hj0].
  assert (Hj : In j0 (seq 0 (length ss))).
  { apply in_seq. assert (j0 < length ss) by (apply nth_error_Some; congruence). lia. }
  apply tab_nth in Hj0. revert Hj. generalize (seq 0 (length ss)). intros js Hj.
  revert Hb Hl. generalize (mem c) l. intros h. revert h. clear l.
  induction js as [|j js IH]; intros h l Hb Hl; [destruct Hj|]. cbn [loop].
  unfold load at 1. rewrite Hb.
  destruct (nth_error l (tab ss j)) as [old|] eqn:E; cbn [of_option bind]; auto.
  unfold compute at 1. destruct (u (peek h (lat c) (tab ss j)) old) as [w|]; cbn [bind]; auto.
  assert (Hlt : tab ss j < length l) by (apply nth_error_Some; congruence).
  destruct (store_ok h b l (tab ss j) (Some w) Hb Hlt) as (h' & l' & -> & (C1 & C2 & C3 & C4 & C5) & _).
  cbn [bind]. destruct Hj as [->|Hj].
  - exfalso. rewrite Hj0 in Hlt. lia.
  - apply (IH Hj h' l' C2). congruence.
Qed.

(** Every assignment to s[sub] of a scalar starts by reading a member that no constructor
    wrote. *)
Theorem C81_scalar_refuted : forall (A : Type) b ss (by_F by_field : res A) (copies : nat),
  assign_subscalar (Nat.iter copies copy_subscalar (osubscalar b ss)) by_F by_field = Undef.
Proof. intros A b ss by_F by_field [|n]; reflexivity. Qed.

Print Assumptions C81_programs.
Print Assumptions C81_all_freed.
Print Assumptions C81_same_subset.
Print Assumptions C81_other_subset_refuted.
Print Assumptions C81_view_assign_refuted.
Print Assumptions C81_sum.
Print Assumptions C81_inner_product.
Print Assumptions C81_sum_view.
Print Assumptions C81_sum_view_refuted.
Print Assumptions C81_poke_owner_refuted.
Print Assumptions C81_scalar_refuted.

(** A program that meets the hypotheses and ends: gather, change the lattice, the copy keeps the
    old values; multiply, add the lattice, write back, destroy everything. *)
Definition at_site (l : nat) (vals : list (cell nat)) : cell nat := nth l vals None.
Definition sample : list (op nat) :=
  [NewLattice; NewLattice; View 0 [0; 1; 2; 3]; Assign 0 (fun _ _ => Some 7); View 1 [0; 1; 2; 3];
   Assign 1 (fun _ _ => Some 2); Gather [3; 1] 0; View 0 [1]; Assign 3 (fun _ _ => Some 50);
   Copy 2; Assign 4 (fun vals old => match at_site 0 vals, old with
                                     | Some x, Some y => Some (x + y) | _, _ => None end);
   LocalProduct 4 Nat.mul 1; AssignLattice 1 4].
Definition values (a : vars nat) (l : nat) : list (cell nat) :=
  match nth_error (lattices a) l with Some (Some f) => map f [0; 1; 2; 3] | _ => [] end.
Example C81_case :
  Forall (tables 4) sample /\
  match run 4 init sample, meaning start sample with
  | Val c, Val a =>
      values a 0 = [Some 7; Some 50; Some 7; Some 7] /\
      values a 1 = [Some 2; Some 57; Some 2; Some 14] /\
      match nth_error (obj c) 5 with
      | Some (Some s) => sum_sub 0 Nat.add (mem c) s = Val (2 * 14 + 2 * 57)
      | _ => False
      end
  | _, _ => False
  end /\
  match run 4 init (sample ++ [DropLattice 0; Drop 0; Drop 1; Drop 2; DropLattice 1; Drop 3;
                               Drop 4; Drop 5]) with
  | Val c' => lat c' = [None; None] /\ obj c' = repeat None 6
  | _ => False
  end /\
  run 4 init (sample ++ [DropLattice 0; Assign 0 (fun _ _ => Some 1)]) = Undef /\
  run 4 init (sample ++ [SetSubset 2 [0]; LocalProduct 2 Nat.mul 0]) = Undef /\
  run 4 init (sample ++ [SetSubset 0 [0]]) = Abort.
Proof.
  split; [unfold sample; tables_tac|]. vm_compute. repeat split.
Qed.

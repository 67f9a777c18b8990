(** C77, C78: the specialised evaluate() functions. *)
From Coq Require Import ZArith String List Bool Lia Ring Permutation Sorted.
From Verif Require Import Base LayoutModel LayoutSpec LayoutProofs SetModel SetSpec SetProofs EvalModel EvalSpec KernLang KernSpec KernSu3Spec.
From Verif Require Import FuseModel FuseSpec FuseTable FuseSite FuseProofs HalfModel HalfProofs.
Import ListNotations.
Local Open Scope string_scope.
Local Open Scope Z_scope.

(** * C77  A specialised evaluate() does what the expression says

    [specials] (FuseTable.v) are the 83 specialisations of the code.  [meaning] and [assigned] (FuseSpec.v) give
    the value of an expression and the effect of an assignment operator; [assigned_at] says that the sites of
    the subset hold the result and nothing else has changed. *)
Theorem C77_specialised_evaluate :
  forall (R : Type) (rO rI : R) (radd rmul rsub rdiv : R -> R -> R) (ropp : R -> R),
  ring_theory rO rI radd rmul rsub ropp eq -> (forall x y, rdiv x y = rmul x (rdiv rI y)) ->
  forall (sp : special) (V threads loc : nat) (s : subset) (calls : list (nat * nat * nat))
         (m : memory R) (d : ptr) (env : path -> ptr),
  In sp specials ->
  operands_ok m d env loc V sp -> good_subset V s ->
  (0 < threads)%nat -> Permutation calls (dispatch threads (total s)) ->
  exists m',
    evaluate_special rO rI radd rmul rsub rdiv ropp d env loc sp s calls m = Val m' /\
    assigned_at m m' d (s_table s)
      (assigned radd rmul rsub rdiv (s_op sp) (value rO m d) (kind (s_rhs sp))
         (meaning rO radd rmul rsub ropp (fun q => value rO m (env q)) [] (s_rhs sp))).
Proof. intros. eapply evaluate_ok; eauto. Qed.
Print Assumptions C77_specialised_evaluate.

(** Every subset built by Set::make qualifies. *)
Theorem C77_built_subsets : forall (lay : layout) (node num : nat) (colour : list nat -> Z) ss cb s,
  layout_ok lay -> (node < l_nodes lay)%nat ->
  set_make lay node {| sf_num := num; sf_col := fun c => Val (colour c) |} = Val ss -> nth_error ss cb = Some s ->
  good_subset (l_sites lay) s.
Proof.
  intros lay node num colour ss cb s Lok Hn Mk Nth.
  split; [eapply C07_all; eauto|].
  destruct (C06_all lay node num colour Lok Hn) as [Good Bad].
  set (bad := fun i => negb ((0 <=? colour (l_coord lay node i)) && (colour (l_coord lay node i) <? Z.of_nat num))).
  destruct (existsb bad (List.seq 0 (l_sites lay))) eqn:Ex.
  - apply existsb_exists in Ex. destruct Ex as (i & I & B). apply in_seq in I.
    rewrite Bad in Mk; [discriminate|]. exists i. split; [lia|]. intros [A1 A2].
    unfold bad in B. rewrite (proj2 (Z.leb_le _ _) A1), (proj2 (Z.ltb_lt _ _) A2) in B. discriminate.
  - destruct Good as (ss' & Mk' & (_ & P) & _).
    + intros i Hi. destruct (bad i) eqn:B.
      * assert (existsb bad (List.seq 0 (l_sites lay)) = true) as E'; [|congruence].
        apply existsb_exists. exists i. split; [apply in_seq; lia|exact B].
      * unfold bad in B. apply negb_false_iff, andb_prop in B. destruct B as [B1%Z.leb_le B2%Z.ltb_lt]. lia.
    + assert (ss' = ss) by congruence. subst. destruct (P cb s Nth) as [Srt Mem].
      split.
      * clear -Srt. induction Srt; constructor; auto. intros I. rewrite Forall_forall in H. specialize (H _ I). lia.
      * apply Forall_forall. intros i I. now apply Mem.
Qed.
Print Assumptions C77_built_subsets.

(** [z = a*x - y] on three of four sites (1, 3, 2 through a site table), two threads, the second first; [y] is
    the destination. *)
Example C77_case :
  let sp := evaluate_r_341 in
  let V := 4%nat in
  let m := fun (b : nat) (o : Z) =>
    match b with
    | 1%nat => if (0 <=? o) && (o <? 96) then Some o else None
    | 2%nat => if (0 <=? o) && (o <? 96) then Some (1000 + o) else None
    | 3%nat => if o =? 0 then Some 7 else None
    | _ => None
    end in
  let d : ptr := (1%nat, 0) in
  let env := fun q : path => match q with [L; L] => (3%nat, 0) | [L; FuseModel.R] => (2%nat, 0) | _ => d end in
  let s := {| s_ordRep := false; s_start := -1; s_end := -1; s_table := [1; 3; 2]%nat |} in
  let calls := [(1, 3, 1); (0, 1, 0)]%nat in
  (In sp specials /\ s_rhs sp = Bin OpSubtract (Bin OpMultiply (Ref LReal) (Ref LVec)) (Ref LVec) /\
   operands_ok m d env 9 V sp /\ NoDup (s_table s) /\ Forall (fun i => (i < V)%nat) (s_table s) /\
   Permutation calls (dispatch 2 (total s))) /\
  match evaluate_special 0 1 Z.add Z.mul Z.sub Z.div Z.opp d env 9 sp s calls m with
  | Val m' => map (cell m' d) [0; 23; 24; 71; 95] = [Some 0; Some 23; Some (7 * 1024 - 24); Some (7 * 1071 - 71); Some (7 * 1095 - 95)]
  | _ => False
  end.
Proof.
  cbv zeta. split; [|vm_compute; reflexivity].
  assert (D : forall a b c (x : option Z), x <> None -> a <= b -> b < c -> (if (a <=? b) && (b <? c) then x else None) <> None).
  { intros a b c x Hx H1 H2. destruct (Z.leb_spec a b); [|lia]. destruct (Z.ltb_spec b c); [exact Hx|lia]. }
  assert (SL : slack evaluate_r_341 = 0) by reflexivity.
  split; [do 4 right; left; reflexivity|]. split; [reflexivity|].
  split; [split; [|split]|].
  - rewrite SL. intros i Hi. apply D; [discriminate|cbn [fst snd] in *; lia..].
  - discriminate.
  - rewrite SL. intros q k I. cbn [evaluate_r_341 s_rhs operands app In] in I.
    destruct I as [I|[I|[I|[]]]]; injection I as <- <-; (split; [discriminate|]).
    + split; [|discriminate]. intros i Hi. assert (i = 0) by lia. subst. cbn. discriminate.
    + split; [|right; discriminate]. intros i Hi. apply D; [discriminate|cbn [fst snd] in *; lia..].
    + split; [|now left]. intros i Hi. apply D; [discriminate|cbn [fst snd] in *; lia..].
  - split; [repeat (constructor; [cbn; intuition discriminate|]); constructor|].
    split; [repeat constructor|].
    vm_compute. apply perm_swap.
Qed.

(** Without the two extra reals behind the arrays, adding a projection to a field is undefined (see C76): the
    last site's kernel reads past the end. *)
Theorem C77_exact_arrays_refuted :
  exists (sp : special) (m : memory Z) (d : ptr) (env : path -> ptr) (s : subset),
    In sp specials /\ (s_op sp, s_rhs sp) = (OpAddAssign, Un FnChiralProjectPlus (Ref LVec)) /\
    has m d 24 /\ has m (env [C]) 24 /\ apart (env [C]) d /\ s_table s = [0%nat] /\ good_subset 1 s /\
    evaluate_special 0 1 Z.add Z.mul Z.sub Z.div Z.opp d env 9 sp s (dispatch 1 (total s)) m = Undef.
Proof.
  pose (m := fun (b : nat) (o : Z) => if (0 <=? o) && (o <? 24) then Some o else None).
  assert (H : forall b, has m (b, 0) 24).
  { intros b i Hi. unfold cell, m. cbn [fst snd]. destruct (Z.leb_spec 0 (0 + i)); [|lia]. destruct (Z.ltb_spec (0 + i) 24); [discriminate|lia]. }
  exists evaluate_g_314, m, (1%nat, 0), (fun _ => (2%nat, 0)),
    {| s_ordRep := true; s_start := 0; s_end := 0; s_table := [0%nat] |}.
  split; [unfold specials; cbn; tauto|]. split; [reflexivity|]. split; [apply H|]. split; [apply H|].
  split; [discriminate|]. split; [reflexivity|]. split.
  - split; [|split; repeat constructor; auto].
    split; [|split]; cbn.
    + split; [|auto]. intros _. exists 0%nat, 0%nat. reflexivity.
    + intros _. exists 0%nat, 0%nat. repeat split; auto.
    + discriminate.
  - vm_compute. reflexivity.
Qed.
Print Assumptions C77_exact_arrays_refuted.

(** * C78  LatticeHalfFermion = LatticeColorMatrix * LatticeHalfFermion

    [is_image A b c] (KernSu3Spec.v): c is the matrix A times the vector b. *)
Theorem C78_half_fermion_product :
  forall (R : Type) (rO rI : R) (radd rmul rsub : R -> R -> R) (ropp : R -> R),
  ring_theory rO rI radd rmul rsub ropp eq ->
  forall (V threads : nat) (s : subset) (calls : list (nat * nat * nat)) (m : memory R) (d u h : ptr),
  has m d (12 * Z.of_nat V) -> has m u (18 * Z.of_nat V) -> has m h (12 * Z.of_nat V) ->
  apart u d -> apart h d ->
  good_subset V s -> (0 < threads)%nat -> Permutation calls (dispatch threads (total s)) ->
  exists m',
    evaluate_half rO radd rmul rsub ropp d u h s calls m = Val m' /\
    (forall i spin, In i (s_table s) -> spin = 0 \/ spin = 1 ->
       is_image radd rmul rsub
         (mat (value rO m (forward u (18 * Z.of_nat i))))
         (num (value rO m (forward h (12 * Z.of_nat i + 6 * spin))))
         (num (value rO m' (forward d (12 * Z.of_nat i + 6 * spin))))) /\
    (forall b o, (forall i, In i (s_table s) -> ~ (b = fst d /\ snd d + 12 * Z.of_nat i <= o < snd d + 12 * Z.of_nat i + 12)) ->
       m' b o = m b o).
Proof.
  intros R rO rI radd rmul rsub ropp RT V threads s calls m d u h Hd Hu Hh Au Ah G Th P.
  destruct (evaluate_half_ok rO rI radd rmul rsub ropp RT d u h Au Ah V s threads calls m (conj Hd (conj Hu Hh)) G Th P)
    as (m' & E & A & F).
  exists m'. split; [exact E|]. split; [|exact F].
  intros i spin I [->| ->]; now apply A.
Qed.
Print Assumptions C78_half_fermion_product.

(** [h = u * h] in place: the first store to a component of the result destroys the component of the operand
    that its later terms need.  Even with u the unit matrix, (a, b, c) becomes (a, 0, 0). *)
Theorem C78_in_place_refuted :
  forall (R : Type) (rO rI : R) (radd rmul rsub : R -> R -> R) (ropp : R -> R),
  ring_theory rO rI radd rmul rsub ropp eq ->
  forall a b c : R,
  let m := fun (bl : nat) (o : Z) =>
    match bl with
    | 1%nat => if (0 <=? o) && (o <? 12)
               then Some (if o mod 6 =? 0 then a else if o mod 6 =? 2 then b else if o mod 6 =? 4 then c else rO) else None
    | 2%nat => if (0 <=? o) && (o <? 18) then Some (if (o =? 0) || (o =? 8) || (o =? 16) then rI else rO) else None
    | _ => None
    end in
  let h : ptr := (1%nat, 0) in let u : ptr := (2%nat, 0) in
  let s := {| s_ordRep := true; s_start := 0; s_end := 0; s_table := [0%nat] |} in
  exists m',
    evaluate_half rO radd rmul rsub ropp h u h s (dispatch 1 (total s)) m = Val m' /\
    map (value rO m h) [0; 1; 2; 3; 4; 5] = [a; rO; b; rO; c; rO] /\
    map (value rO m' h) [0; 1; 2; 3; 4; 5] = [a; rO; rO; rO; rO; rO] /\
    (is_image radd rmul rsub (mat (value rO m u)) (num (value rO m h)) (num (value rO m' h)) -> b = rO /\ c = rO).
Proof.
  intros R rO rI radd rmul rsub ropp RT. exact (half_in_place rO rI radd rmul rsub ropp RT).
Qed.
Print Assumptions C78_in_place_refuted.

(** A product into another field, meeting the hypotheses of the positive theorem. *)
Example C78_case :
  let m := fun (b : nat) (o : Z) =>
    match b with
    | 1%nat => if (0 <=? o) && (o <? 24) then Some 0 else None
    | 2%nat => if (0 <=? o) && (o <? 36) then Some (o + 1) else None
    | 3%nat => if (0 <=? o) && (o <? 24) then Some (2 * o) else None
    | _ => None
    end in
  let d : ptr := (1%nat, 0) in let u : ptr := (2%nat, 0) in let h : ptr := (3%nat, 0) in
  let s := {| s_ordRep := true; s_start := 1; s_end := 1; s_table := [1%nat] |} in
  (has m d 24 /\ has m u 36 /\ has m h 24 /\ apart u d /\ apart h d /\ good_subset 2 s) /\
  match evaluate_half 0 Z.add Z.mul Z.sub Z.opp d u h s (dispatch 3 (total s)) m with
  | Val m' => map (value 0 m' d) [11; 12; 13; 22; 23] = [0; -216; 3770; -324; 8270]
  | _ => False
  end.
Proof.
  cbv zeta. split; [|vm_compute; reflexivity].
  assert (D : forall b c (x : option Z), x <> None -> 0 <= b -> b < c -> (if (0 <=? b) && (b <? c) then x else None) <> None).
  { intros b c x Hx H1 H2. destruct (Z.leb_spec 0 b); [|lia]. destruct (Z.ltb_spec b c); [exact Hx|lia]. }
  split; [intros i Hi; apply D; [discriminate|cbn [fst snd] in *; lia..]|].
  split; [intros i Hi; apply D; [discriminate|cbn [fst snd] in *; lia..]|].
  split; [intros i Hi; apply D; [discriminate|cbn [fst snd] in *; lia..]|].
  split; [discriminate|]. split; [discriminate|].
  split; [|split; repeat constructor; auto].
  split; [|split]; cbn.
  - split; [|auto]. intros _. exists 1%nat, 0%nat. reflexivity.
  - intros _. exists 1%nat, 1%nat. repeat split; auto.
  - discriminate.
Qed.

(** C75: isnan, isinf, isfinite and isnormal. *)
From Coq Require Import List NArith ZArith PeanoNat Bool Lia.
From Verif Require Import Base ComplexModel TensorModel TensorSpec ClassModel.
Import ListNotations.
Set Default Timeout 120.

(** The real numbers an object is made of. *)
Fixpoint parts {R} (x : @val R) : list R :=
  match x with
  | Rv a => [a]
  | Cv z => [fst z; snd z]
  | Sv v => parts v
  | Mv _ n f => flat_map (fun i => flat_map (fun j => parts (f i j)) (seq 0 n)) (seq 0 n)
  | Vv _ n f => flat_map (fun i => parts (f i)) (seq 0 n)
  | Bad => []
  end.
(** Is there a matrix level? *)
Fixpoint has_matrix (t : ty) : Prop :=
  match t with TR | TC => False | TS t | TV _ _ t => has_matrix t | TM _ _ _ => True end.

Lemma fold_or {A} (p : A -> bool) l : forall d, fold_left (fun d x => d || p x) l d = d || existsb p l.
Proof. induction l; cbn; intros; [now rewrite orb_false_r|]. rewrite IHl. now rewrite orb_assoc. Qed.
Lemma fold_and {A} (p : A -> bool) l : forall d, fold_left (fun d x => d && p x) l d = d && forallb p l.
Proof. induction l; cbn; intros; [now rewrite andb_true_r|]. rewrite IHl. now rewrite andb_assoc. Qed.
Lemma fold_ext {A B} (f g : B -> A -> B) l : (forall d x, f d x = g d x) -> forall d, fold_left f l d = fold_left g l d.
Proof. intros H. induction l; cbn; intros; [trivial|]. now rewrite H. Qed.
Lemma any2_ok n f : any2 n f = existsb (fun i => existsb (f i) (seq 0 n)) (seq 0 n).
Proof. unfold any2. erewrite fold_ext by (intros; apply fold_or). now rewrite fold_or. Qed.
Lemma all2_ok n f : all2 n f = forallb (fun i => forallb (f i) (seq 0 n)) (seq 0 n).
Proof. unfold all2. erewrite fold_ext by (intros; apply fold_and). now rewrite fold_and. Qed.
Lemma any_ok n f : any n f = existsb f (seq 0 n).
Proof. unfold any. now rewrite fold_or. Qed.
Lemma all_ok n f : all n f = forallb f (seq 0 n).
Proof. unfold all. now rewrite fold_and. Qed.
Lemma existsb_flat_map {A B} (p : B -> bool) (f : A -> list B) l : existsb p (flat_map f l) = existsb (fun a => existsb p (f a)) l.
Proof. induction l; cbn; [trivial|]. now rewrite existsb_app, IHl. Qed.
Lemma forallb_flat_map {A B} (p : B -> bool) (f : A -> list B) l : forallb p (flat_map f l) = forallb (fun a => forallb p (f a)) l.
Proof. induction l; cbn; [trivial|]. now rewrite forallb_app, IHl. Qed.
Lemma existsb_ext {A} (p q : A -> bool) l : (forall a, p a = q a) -> existsb p l = existsb q l.
Proof. intros H. induction l; cbn; [trivial|]. now rewrite H, IHl. Qed.
Lemma forallb_ext {A} (p q : A -> bool) l : (forall a, p a = q a) -> forallb p l = forallb q l.
Proof. intros H. induction l; cbn; [trivial|]. now rewrite H, IHl. Qed.

Section Site.
Context {R : Type} (nan inf fin nor : R -> bool).
Theorem C75_site : forall t x, typed t x ->
  v_isnan nan x = existsb nan (parts x) /\
  v_isinf inf x = existsb inf (parts x) /\
  v_isfinite fin x = forallb fin (parts x) /\
  (~ has_matrix t -> v_isnormal inf nor x = forallb nor (parts x)).
Proof.
  assert (A : forall q (x : @val R), v_isnan q x = existsb q (parts x)).
  { intros q. fix IH 1. destruct x; cbn; rewrite ?orb_false_r; auto.
    - rewrite any2_ok, existsb_flat_map. apply existsb_ext. intros. rewrite existsb_flat_map. apply existsb_ext. intros. apply IH.
    - rewrite any_ok, existsb_flat_map. apply existsb_ext. intros. apply IH. }
  assert (B : forall q (x : @val R), v_isinf q x = existsb q (parts x)).
  { intros q. fix IH 1. destruct x; cbn; rewrite ?orb_false_r; auto.
    - rewrite any2_ok, existsb_flat_map. apply existsb_ext. intros. rewrite existsb_flat_map. apply existsb_ext. intros. apply IH.
    - rewrite any_ok, existsb_flat_map. apply existsb_ext. intros. apply IH. }
  assert (C : forall q (x : @val R), v_isfinite q x = forallb q (parts x)).
  { intros q. fix IH 1. destruct x; cbn; rewrite ?andb_true_r; auto.
    - rewrite all2_ok, forallb_flat_map. apply forallb_ext. intros. rewrite forallb_flat_map. apply forallb_ext. intros. apply IH.
    - rewrite all_ok, forallb_flat_map. apply forallb_ext. intros. apply IH. }
  intros t x Hx. split; [apply A|]. split; [apply B|]. split; [apply C|].
  revert x Hx. induction t; intros x Hx N; destruct x; try contradiction; cbn in *; rewrite ?andb_true_r; auto.
  - now destruct N.
  - destruct Hx as (<- & <- & Hx). rewrite all_ok, forallb_flat_map.
    assert (G : forall l, (forall i, In i l -> i < n) -> forallb (fun i => v_isnormal inf nor (f i)) l = forallb (fun i => forallb nor (parts (f i))) l).
    { induction l; cbn; intros Hl; [trivial|]. rewrite IHl by auto. rewrite IHt; auto. }
    apply G. intros i Hi. apply in_seq in Hi. lia.
Qed.
(** isnormal of a matrix says whether every element contains an infinity: a
    matrix of normal numbers is called not normal, one of infinities normal. *)
Theorem C75_isnormal_refuted : forall k n t x, 0 < n -> pos t -> typed (TM k n t) x ->
  (forall a, nor a = true -> inf a = false) ->
  (forallb nor (parts x) = true -> v_isnormal inf nor x = false) /\
  (forallb inf (parts x) = true -> v_isnormal inf nor x = true).
Proof.
  intros k n t x Pn Pt Hx Dis.
  assert (NE : forall t (x : @val R), pos t -> typed t x -> exists a, In a (parts x)).
  { clear. induction t; intros x P Hx; destruct x; try contradiction; cbn in *; eauto.
    - destruct Hx as (<- & <- & Hx), P as [Pn P]. destruct (IHt (f 0 0) P) as [a Ha]; auto. exists a.
      apply in_flat_map. exists 0. split; [apply in_seq; lia|]. apply in_flat_map. exists 0. split; [apply in_seq; lia|trivial].
    - destruct Hx as (<- & <- & Hx), P as [Pn P]. destruct (IHt (f 0) P) as [a Ha]; auto. exists a.
      apply in_flat_map. exists 0. split; [apply in_seq; lia|trivial]. }
  destruct x; try contradiction. destruct Hx as (<- & <- & Hx). cbn [v_isnormal parts].
  assert (B : forall i j, i < n -> j < n -> v_isinf inf (f i j) = existsb inf (parts (f i j)))
    by (intros i j Hi Hj; destruct (C75_site t (f i j)) as (_ & E & _); auto).
  rewrite all2_ok. split; intros H.
  - rewrite forallb_forall in H. destruct (NE t (f 0 0) Pt) as [a Ha]; auto.
    assert (E : v_isinf inf (f 0 0) = false).
    { rewrite B by trivial. rewrite <- not_true_iff_false, existsb_exists. intros (b & Hb & Hi).
      rewrite Dis in Hi; [discriminate|]. apply H. apply in_flat_map. exists 0. split; [apply in_seq; lia|].
      apply in_flat_map. exists 0. split; [apply in_seq; lia|trivial]. }
    destruct n; [lia|]. cbn [seq forallb]. now rewrite E.
  - rewrite forallb_forall in *. intros i Hi. rewrite forallb_forall. intros j Hj.
    pose proof Hi as Hi'. pose proof Hj as Hj'. apply in_seq in Hi', Hj'. rewrite B by lia. rewrite existsb_exists.
    destruct (NE t (f i j) Pt) as [a Ha]; [apply Hx; lia|]. exists a. split; [trivial|]. apply H.
    apply in_flat_map. exists i. split; [trivial|]. apply in_flat_map. eauto.
Qed.

(** On one node the lattice functions are right. *)
Theorem C75_one_node : forall (p : @val R -> bool) slack sites,
  lattice_any p slack [sites] = Val (existsb p sites) /\
  lattice_all p slack [sites] = Val (forallb p sites).
Proof.
  intros. unfold lattice_any, lattice_all, global_bool, node_any, node_all. cbn. rewrite fold_or, fold_and. cbn.
  now destruct (existsb p sites), (forallb p sites).
Qed.
End Site.
Print Assumptions C75_site.
Print Assumptions C75_isnormal_refuted.
Print Assumptions C75_one_node.

(** On several nodes a bool is combined as if it were an unsigned int. *)
Lemma reduction_head op (OK : forall a b : bool, exists c : bool, op (if a then 1%N else 0%N) (if b then 1%N else 0%N) = if c then 1%N else 0%N) :
  forall others d rest slack, 3 <= length slack -> 3 <= length rest ->
  exists rest', 3 <= length rest' /\
  binary_reduction op (bool_bytes d ++ rest) (map (fun b => bool_bytes b ++ slack) others) =
  Val (fold_left (fun a (b : bool) => op a (if b then 1%N else 0%N)) others (if d then 1%N else 0%N) :: rest').
Proof.
  induction others; cbn [map binary_reduction fold_left]; intros d rest slack Hs Hr; [eauto|].
  destruct (OK d a) as [c Hc].
  assert (E : exists r, 3 <= length r /\ globalCheck op (bool_bytes d ++ rest) (bool_bytes a ++ slack) = Val (bool_bytes c ++ r)).
  { unfold globalCheck.
    replace ((4 <=? length (bool_bytes d ++ rest)) && (4 <=? length (bool_bytes a ++ slack))) with true
      by (symmetry; apply andb_true_iff; split; apply Nat.leb_le; rewrite app_length; cbn [bool_bytes length]; lia).
    cbn [bool_bytes app firstn byte_op combine map skipn fst snd]. rewrite Hc. eexists. split; [|reflexivity].
    rewrite app_length. change (map _ _) with (byte_op op (firstn 3 rest) (firstn 3 slack)). unfold byte_op.
    rewrite map_length, combine_length, !firstn_length. lia. }
  destruct E as (r & Hr' & ->). cbn [bind]. rewrite Hc. now apply IHothers.
Qed.
(** If at least three more bytes can be accessed after every node's flag, the
    flags are combined correctly. *)
Theorem C75_nodes_slack : forall (R : Type) (p : @val R -> bool) slack nodes, nodes <> [] -> 3 <= length slack ->
  lattice_any p slack nodes = Val (existsb (existsb p) nodes) /\
  lattice_all p slack nodes = Val (forallb (forallb p) nodes).
Proof.
  intros R p slack nodes Hn Hs. destruct nodes as [|s nodes]; [easy|]. unfold lattice_any, lattice_all, global_bool. cbn [map].
  assert (O : forall l (d : bool), fold_left (fun a (b : bool) => N.lor a (if b then 1%N else 0%N)) l (if d then 1%N else 0%N) = if (d || existsb (fun b => b) l) then 1%N else 0%N).
  { induction l; cbn [fold_left existsb]; intros d; [now destruct d|]. 
    replace (N.lor (if d then 1%N else 0%N) (if a then 1%N else 0%N)) with (if (d || a)%bool then 1%N else 0%N) by now destruct d, a.
    rewrite IHl. now rewrite orb_assoc. }
  assert (A : forall l (d : bool), fold_left (fun a (b : bool) => N.land a (if b then 1%N else 0%N)) l (if d then 1%N else 0%N) = if (d && forallb (fun b => b) l) then 1%N else 0%N).
  { induction l; cbn [fold_left forallb]; intros d; [now destruct d|].
    replace (N.land (if d then 1%N else 0%N) (if a then 1%N else 0%N)) with (if (d && a)%bool then 1%N else 0%N) by now destruct d, a.
    rewrite IHl. now rewrite andb_assoc. }
  split.
  - destruct (reduction_head N.lor) with (others := map (node_any p) nodes) (d := node_any p s) (rest := slack) (slack := slack) as (r & _ & ->); auto.
    { intros a b. exists (a || b). now destruct a, b. }
    cbn [bind]. rewrite O. cbn [existsb]. unfold node_any at 1. rewrite fold_or. cbn [orb].
    replace (existsb (fun b => b) (map (node_any p) nodes)) with (existsb (existsb p) nodes); [now destruct (existsb p s || existsb (existsb p) nodes)|].
    clear. induction nodes; cbn; [trivial|]. rewrite IHnodes. unfold node_any. now rewrite fold_or.
  - destruct (reduction_head N.land) with (others := map (node_all p) nodes) (d := node_all p s) (rest := slack) (slack := slack) as (r & _ & ->); auto.
    { intros a b. exists (a && b). now destruct a, b. }
    cbn [bind]. rewrite A. cbn [forallb]. unfold node_all at 1. rewrite fold_and. cbn [andb].
    replace (forallb (fun b => b) (map (node_all p) nodes)) with (forallb (forallb p) nodes); [now destruct (forallb p s && forallb (forallb p) nodes)|].
    clear. induction nodes; cbn; [trivial|]. rewrite IHnodes. unfold node_all. now rewrite fold_and.
Qed.
(** But the buffers have one byte: with two nodes or more the access is out of
    bounds, whatever the lattice holds. *)
Theorem C75_nodes_refuted : forall (R : Type) (p : @val R -> bool) s1 s2 nodes,
  lattice_any p [] (s1 :: s2 :: nodes) = Undef /\ lattice_all p [] (s1 :: s2 :: nodes) = Undef.
Proof. intros. split; reflexivity. Qed.
(** And where the bytes behind are accessible, they are overwritten. *)
Theorem C75_overwrite_refuted : forall d b,
  global_after N.land d b [7; 7; 7]%N [0; 0; 0]%N = Val [0; 0; 0]%N /\
  global_after N.lor d b [0; 0; 0]%N [5; 6; 7]%N = Val [5; 6; 7]%N.
Proof. intros [] []; split; reflexivity. Qed.
Print Assumptions C75_nodes_slack.
Print Assumptions C75_nodes_refuted.
Print Assumptions C75_overwrite_refuted.

(** A word is normal when 1, infinite when 2, nan when 3. *)
Example C75_case :
  let m := Sv (Mv Colour 3 (fun _ _ => Cv (1, 1))) in
  let nor := Nat.eqb 1 in let inf := Nat.eqb 2 in
  typed (TS (TM Colour 3 TC)) m /\ forallb nor (parts m) = true /\ v_isnormal inf nor m = false /\
  (forall a, nor a = true -> inf a = false).
Proof.
  cbn. repeat split; trivial. intros a H. destruct a as [|[|a]]; try discriminate. reflexivity.
Qed.

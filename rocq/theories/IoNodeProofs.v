(** Proofs about the assignment of I/O nodes. *)
From Coq Require Import List Arith ZArith Bool Lia.
From Verif Require Import Base LayoutModel LayoutSpec LayoutProofs LayoutOk LatIoSpec LatIoProofs IoNodeModel IoNodeSpec.
Import ListNotations.
Local Open Scope nat_scope.

Lemma mapM_val {A B} (f : A -> res B) (g : A -> B) l : (forall a, In a l -> f a = Val (g a)) -> mapM f l = Val (map g l).
Proof.
  induction l as [|a l IH]; intros H; cbn; [reflexivity|].
  rewrite (H a) by now left. cbn. rewrite IH; [reflexivity|]. intros; apply H. now right.
Qed.
Lemma mapM_undef {A B} (f : A -> res B) l : (forall a, In a l -> f a = Undef \/ exists b, f a = Val b) ->
  (exists a, In a l /\ f a = Undef) -> mapM f l = Undef.
Proof.
  induction l as [|a l IH]; intros H [x [Hx E]]; [destruct Hx|]. cbn.
  destruct (H a) as [->|[b Eb]]; [now left|reflexivity|]. rewrite Eb. cbn.
  rewrite IH; [reflexivity|intros; apply H; now right|]. exists x. destruct Hx as [->|Hx]; [congruence|tauto].
Qed.

Lemma ceil_pos a b : 0 < a -> 0 < b -> 0 < ceil_div a b.
Proof.
  intros Ha Hb. unfold ceil_div. destruct (Nat.eqb_spec (a mod b) 0) as [E|]; [|rewrite Nat.add_1_r; apply Nat.lt_0_succ].
  rewrite Nat.add_0_r. apply Nat.div_str_pos. pose proof (Nat.div_mod a b ltac:(lia)).
  destruct (Nat.le_gt_cases b a); [lia|]. rewrite Nat.mod_small in E; lia.
Qed.
(** [q < ceil(a/b)] exactly if [q*b < a]. *)
Lemma ceil_lt a b q : 0 < b -> (q < ceil_div a b <-> q * b < a).
Proof.
  intros Hb. unfold ceil_div. pose proof (Nat.div_mod a b ltac:(lia)) as E. pose proof (Nat.mod_upper_bound a b ltac:(lia)).
  set (d := a / b) in *. set (m := a mod b) in *. destruct (Nat.eqb_spec m 0) as [Em|Em].
  - rewrite Nat.add_0_r. rewrite E, Em, Nat.add_0_r, (Nat.mul_comm b d).
    rewrite <- Nat.mul_lt_mono_pos_r by lia. reflexivity.
  - split; intros H0; [nia|]. destruct (Nat.lt_ge_cases q (d + 1)); [auto|]. nia.
Qed.
Lemma ceil_le a b : 0 < b -> ceil_div a b * b >= a.
Proof.
  intros Hb. destruct (Nat.le_gt_cases a (ceil_div a b * b)) as [H|H]; [exact H|].
  apply ceil_lt in H; lia.
Qed.
Lemma ceil_ceil_le a g : 0 < a -> 0 < g -> ceil_div a (ceil_div a g) <= g.
Proof.
  intros Ha Hg. pose proof (ceil_pos a g Ha Hg) as Hb.
  destruct (Nat.le_gt_cases (ceil_div a (ceil_div a g)) g) as [H|H]; [exact H|].
  apply ceil_lt in H; [|auto]. pose proof (ceil_le a g Hg). lia.
Qed.
Lemma ceil_exact a g : 0 < a -> 0 < g -> Nat.divide g a -> ceil_div a (ceil_div a g) = g.
Proof.
  intros Ha Hg [q ->]. assert (0 < q) by (destruct q; lia).
  assert (E : ceil_div (q * g) g = q) by (unfold ceil_div; rewrite Nat.mod_mul, Nat.div_mul by lia; cbn; lia).
  rewrite E, (Nat.mul_comm q g). unfold ceil_div. rewrite Nat.mod_mul, Nat.div_mul by lia. cbn. lia.
Qed.

Lemma block_size_ok P g : 0 < g -> block_size (Z.of_nat P) (Z.of_nat g) = Val (Z.of_nat (ceil_div P g)).
Proof.
  intros Hg. unfold block_size, c_div, c_rem. destruct (Z.eqb_spec (Z.of_nat g) 0); [lia|]. cbn [bind].
  rewrite Z.rem_mod_nonneg, Z.quot_div_nonneg by lia. rewrite <- Nat2Z.inj_div, <- Nat2Z.inj_mod. unfold ceil_div.
  destruct (Nat.eqb_spec (P mod g) 0) as [E|E].
  - rewrite E. cbn. f_equal. lia.
  - destruct (Z.eqb_spec (Z.of_nat (P mod g)) 0); [lia|]. cbn [negb]. f_equal. lia.
Qed.
Lemma io_node_coord_ok c b : 0 < b -> io_node_coord (Z.of_nat c) (Z.of_nat b) = Val (Z.of_nat (c / b * b)).
Proof.
  intros Hb. unfold io_node_coord, c_div. destruct (Z.eqb_spec (Z.of_nat b) 0); [lia|]. cbn [bind].
  rewrite Z.quot_div_nonneg by lia. rewrite <- Nat2Z.inj_div, <- Nat2Z.inj_mul. reflexivity.
Qed.

Lemma nth_map_of_nat g mu : nth mu (map Z.of_nat g) 0%Z = Z.of_nat (get g mu).
Proof. unfold get. change 0%Z with (Z.of_nat 0). now rewrite map_nth. Qed.
Lemma nth_map_seq {A} (f : nat -> A) n i d : i < n -> nth i (map f (seq 0 n)) d = f i.
Proof.
  intros H. rewrite (nth_indep _ d (f 0)) by (rewrite map_length, seq_length; lia).
  rewrite map_nth, seq_nth by lia. reflexivity.
Qed.

Lemma mul_all_ones : forall l a, (forall x, In x l -> (0 < x)%Z) -> (0 < a)%Z -> fold_left Z.mul l a = 1%Z ->
  a = 1%Z /\ forall x, In x l -> x = 1%Z.
Proof.
  induction l as [|x l IH]; cbn; intros a H Ha E; [split; [lia|tauto]|].
  assert (0 < x)%Z by (apply H; now left).
  destruct (IH (a * x)%Z) as [E1 E2]; [intros; apply H; now right|nia|exact E|].
  assert (a = 1 /\ x = 1)%Z as [-> ->] by nia. split; [reflexivity|]. intros y [<-|Hy]; auto.
Qed.
Lemma all_sites_nodup L : NoDup (all_sites L).
Proof. apply (NoDup_map_inv (lexnum L)). rewrite lexnum_all_sites. apply seq_NoDup. Qed.
Lemma all_sites_length L : length (all_sites L) = volume L.
Proof. rewrite <- (map_length (lexnum L)), lexnum_all_sites. apply seq_length. Qed.
Lemma volume_ones : forall L, (forall i, i < length L -> get L i = 1) -> volume L = 1.
Proof.
  induction L as [|l L IH]; intros H; cbn; [reflexivity|].
  rewrite IH; [specialize (H 0 ltac:(cbn; lia)); cbn in H; lia|].
  intros i Hi. apply (H (S i)). cbn. lia.
Qed.
Lemma volume_le : forall L L', length L = length L' -> (forall i, i < length L -> get L i <= get L' i) -> volume L <= volume L'.
Proof.
  induction L as [|l L IH]; intros [|l' L'] E H; cbn in *; try discriminate; [lia|].
  apply Nat.mul_le_mono; [apply (H 0); lia|]. apply IH; [lia|]. intros i Hi. apply (H (S i)). lia.
Qed.

Section Grid.
  Variables (M : machine) (g : list nat).
  Hypothesis HM : machine_ok M.
  Hypothesis Hl : length g = length (mgrid M).
  Hypothesis Hg : positive g.
  Let P := mgrid M.
  Let Nd := length P.
  Let B mu := ceil_div (get P mu) (get g mu).

  Lemma B_pos mu : mu < Nd -> 0 < B mu.
  Proof. intros H. apply ceil_pos; [apply HM; exact H|apply Hg; rewrite Hl; exact H]. Qed.

  Definition corner (c : list nat) : list nat := map (fun mu => get c mu / B mu * B mu) (seq 0 Nd).

  Lemma corner_get c mu : mu < Nd -> get (corner c) mu = get c mu / B mu * B mu.
  Proof. intros. unfold corner. now rewrite get_map_seq. Qed.
  Lemma corner_in c : in_lattice P c -> in_lattice P (corner c).
  Proof.
    intros H. apply in_lattice_get in H. destruct H as [L H]. apply in_lattice_get. unfold corner at 1.
    rewrite map_length, seq_length. split; [reflexivity|]. intros i Hi. rewrite corner_get by exact Hi.
    specialize (H i Hi). pose proof (Nat.mul_div_le (get c i) (B i) ltac:(pose proof (B_pos i Hi); lia)). lia.
  Qed.
  Lemma coord_in n : n < num_nodes M -> in_lattice P (coord_of M n) /\ node_of M (coord_of M n) = n.
  Proof. rewrite num_nodes_volume. apply HM. Qed.
  Lemma node_in c : in_lattice P c -> node_of M c < num_nodes M /\ coord_of M (node_of M c) = c.
  Proof. rewrite num_nodes_volume. apply HM. Qed.

  Lemma one_io_node : numIONodeGrid (map Z.of_nat g) = 1%Z -> forall mu, mu < Nd -> get g mu = 1.
  Proof.
    intros E mu Hmu. assert (Hin : forall x, In x (map Z.of_nat g) -> (0 < x)%Z).
    { intros x Hx. apply in_map_iff in Hx as [y [<- Hy]]. apply In_nth with (d := 0) in Hy as [i [Hi <-]].
      specialize (Hg i Hi). unfold get in Hg. lia. }
    unfold numIONodeGrid in E. clear - E Hin Hmu Hl. destruct g as [|a l]; [cbn in *; unfold Nd, P in *; lia|].
    cbn [map hd tl] in *. apply mul_all_ones in E as [E1 E2]; [|intros; apply Hin; now right|apply Hin; now left].
    unfold get. destruct mu; cbn; [lia|].
    assert (mu < length l) by (cbn in Hl; unfold Nd, P in *; lia).
    assert (Z.of_nat (nth mu l 0) = 1%Z) by (apply E2, in_map, nth_In; auto). lia.
  Qed.
  Lemma no_shortcut n : numIONodeGrid (map Z.of_nat g) <> 1%Z ->
    io_node M (Some (map Z.of_nat g)) n = Val (node_of M (corner (coord_of M n))).
  Proof.
    intros E. unfold io_node. destruct (Z.eqb_spec (numIONodeGrid (map Z.of_nat g)) 1); [tauto|].
    unfold block_sizes. rewrite (mapM_val _ (fun mu => Z.of_nat (B mu))).
    - cbn [bind]. fold P Nd. rewrite (mapM_val _ (fun mu => Z.of_nat (get (coord_of M n) mu / B mu * B mu))).
      + cbn [bind]. f_equal. f_equal. rewrite map_map. unfold corner. apply map_ext. intros. apply Nat2Z.id.
      + intros mu Hmu. apply in_seq in Hmu. rewrite nth_map_seq by lia. apply io_node_coord_ok, B_pos. lia.
    - intros mu Hmu. apply in_seq in Hmu. rewrite nth_map_of_nat. apply block_size_ok. apply Hg. rewrite Hl. lia.
  Qed.

  Lemma shortcut_div c mu : numIONodeGrid (map Z.of_nat g) = 1%Z -> in_lattice P c -> mu < Nd -> get c mu / B mu = 0.
  Proof.
    intros E Hc Hmu. apply Nat.div_small. apply in_lattice_get in Hc as [_ Hc]. specialize (Hc mu Hmu).
    unfold B. rewrite (one_io_node E mu Hmu). unfold ceil_div. rewrite Nat.mod_1_r, Nat.div_1_r. cbn. lia.
  Qed.

  Lemma corner_idem c : corner (corner c) = corner c.
  Proof.
    unfold corner at 1. unfold corner at 2. apply map_ext_in. intros mu Hmu. apply in_seq in Hmu.
    rewrite corner_get by lia. rewrite Nat.div_mul by (pose proof (B_pos mu ltac:(lia)); lia). reflexivity.
  Qed.
  Lemma corner_eq c c' : corner c = corner c' <-> same_block P g c c'.
  Proof.
    split.
    - intros E mu Hmu. assert (E' : get (corner c) mu = get (corner c') mu) by congruence.
      rewrite !corner_get in E' by exact Hmu. pose proof (B_pos mu Hmu). fold (B mu).
      apply Nat.mul_cancel_r in E'; [exact E'|lia].
    - intros H. unfold corner. apply map_ext_in. intros mu Hmu. apply in_seq in Hmu.
      specialize (H mu ltac:(unfold Nd in *; lia)). fold (B mu) in H. now rewrite H.
  Qed.

  Lemma io_node_ok n : n < num_nodes M ->
    exists r, io_node M (Some (map Z.of_nat g)) n = Val r /\ r < num_nodes M /\
      io_node M (Some (map Z.of_nat g)) r = Val r /\
      forall m, m < num_nodes M ->
        (io_node M (Some (map Z.of_nat g)) m = Val r <-> same_block P g (coord_of M n) (coord_of M m)).
  Proof.
    intros Hn. destruct (Z.eq_dec (numIONodeGrid (map Z.of_nat g)) 1) as [E|E].
    - assert (Hs : forall m, io_node M (Some (map Z.of_nat g)) m = Val 0) by (intros; unfold io_node; now rewrite E).
      exists 0. rewrite !Hs. repeat split; try reflexivity; [lia| |intros _; apply Hs].
      intros _ mu Hmu. fold (B mu).
      rewrite (shortcut_div (coord_of M n) mu E), (shortcut_div (coord_of M m) mu E); auto; now apply coord_in.
    - pose proof (no_shortcut n E) as En. destruct (coord_in n Hn) as [In _].
      destruct (node_in _ (corner_in _ In)) as [Hr Cr].
      exists (node_of M (corner (coord_of M n))). repeat split; auto.
      + rewrite no_shortcut by auto. rewrite Cr. now rewrite corner_idem.
      + rewrite no_shortcut by auto. intros H0. apply corner_eq.
        destruct (coord_in m ltac:(assumption)) as [Im _]. destruct (node_in _ (corner_in _ Im)) as [_ Cm].
        rewrite <- Cr, <- Cm. f_equal. congruence.
      + intros H0. rewrite no_shortcut by auto. apply corner_eq in H0. now rewrite H0.
  Qed.

  Lemma master_ok : node_of M (repeat 0 Nd) = 0 -> io_node M (Some (map Z.of_nat g)) 0 = Val 0.
  Proof.
    intros H0. destruct (Z.eq_dec (numIONodeGrid (map Z.of_nat g)) 1) as [E|E]; [unfold io_node; now rewrite E|].
    rewrite no_shortcut by auto. f_equal.
    assert (Iz : in_lattice P (repeat 0 Nd)).
    { apply in_lattice_get. rewrite repeat_length. split; [reflexivity|]. intros i Hi. unfold get. rewrite nth_repeat. apply HM. exact Hi. }
    destruct (node_in _ Iz) as [_ Cz]. rewrite H0 in Cz. rewrite Cz. transitivity (node_of M (repeat 0 Nd)); [|exact H0]. f_equal.
    apply (nth_ext _ _ 0 0); [unfold corner; rewrite map_length, seq_length, repeat_length; reflexivity|].
    unfold corner. rewrite map_length, seq_length. intros i Hi.
    rewrite nth_map_seq by auto. unfold get. rewrite !nth_repeat. rewrite Nat.div_0_l; [reflexivity|].
    pose proof (B_pos i Hi). lia.
  Qed.

  (** The corner of block [k]. *)
  Definition corner_of (k : list nat) : list nat := map (fun mu => get k mu * B mu) (seq 0 Nd).
  Definition index_of (c : list nat) : list nat := map (fun mu => get c mu / B mu) (seq 0 Nd).

  Lemma slabs_get mu : mu < Nd -> get (slabs P g) mu = ceil_div (get P mu) (B mu).
  Proof. intros. unfold slabs. now rewrite get_map_seq. Qed.
  Lemma slabs_length : length (slabs P g) = Nd.
  Proof. unfold slabs. now rewrite map_length, seq_length. Qed.

  Lemma corner_of_in k : in_lattice (slabs P g) k -> in_lattice P (corner_of k).
  Proof.
    intros H. apply in_lattice_get in H as [L H]. rewrite slabs_length in *. apply in_lattice_get.
    unfold corner_of at 1. rewrite map_length, seq_length. split; [reflexivity|]. intros i Hi. unfold corner_of.
    rewrite get_map_seq by exact Hi. specialize (H i Hi). rewrite slabs_get in H by exact Hi.
    apply ceil_lt in H; [exact H|now apply B_pos].
  Qed.
  Lemma index_of_in c : in_lattice P c -> in_lattice (slabs P g) (index_of c).
  Proof.
    intros H. apply in_lattice_get in H as [L H]. apply in_lattice_get. rewrite slabs_length. unfold index_of at 1.
    rewrite map_length, seq_length. split; [reflexivity|]. intros i Hi. unfold index_of.
    rewrite get_map_seq by exact Hi. rewrite slabs_get by exact Hi. apply ceil_lt; [now apply B_pos|].
    specialize (H i Hi). pose proof (Nat.mul_div_le (get c i) (B i) ltac:(pose proof (B_pos i Hi); lia)). lia.
  Qed.
  Lemma corner_index c : corner_of (index_of c) = corner c.
  Proof.
    unfold corner_of, corner. apply map_ext_in. intros mu Hmu. apply in_seq in Hmu. unfold index_of.
    rewrite get_map_seq by lia. reflexivity.
  Qed.
  Lemma corner_corner_of k : corner (corner_of k) = corner_of k.
  Proof.
    unfold corner, corner_of at 2. apply map_ext_in. intros mu Hmu. apply in_seq in Hmu. unfold corner_of.
    rewrite get_map_seq by lia. rewrite Nat.div_mul; [reflexivity|]. pose proof (B_pos mu ltac:(lia)). lia.
  Qed.
  Lemma corner_of_inj k k' : in_lattice (slabs P g) k -> in_lattice (slabs P g) k' -> corner_of k = corner_of k' -> k = k'.
  Proof.
    intros H H' E. apply in_lattice_get in H as [L _]. apply in_lattice_get in H' as [L' _].
    rewrite slabs_length in *. apply (nth_ext _ _ 0 0); [congruence|]. intros i Hi. rewrite L in Hi.
    assert (E' : get (corner_of k) i = get (corner_of k') i) by congruence. unfold corner_of in E'.
    rewrite !get_map_seq in E' by exact Hi. apply Nat.mul_cancel_r in E'; [exact E'|]. pose proof (B_pos i Hi). lia.
  Qed.



  Lemma count_ok : exists S, NoDup S /\ assigned (io_node M (Some (map Z.of_nat g))) (num_nodes M) S /\
    length S = volume (slabs P g).
  Proof.
    destruct (Z.eq_dec (numIONodeGrid (map Z.of_nat g)) 1) as [E|E].
    - exists [0]. split; [repeat constructor; cbn; tauto|]. split.
      + intros r. unfold io_node. rewrite E. cbn. split.
        * intros [<-|[]]. exists 0. split; [|reflexivity]. rewrite num_nodes_volume. apply volume_pos, HM.
        * intros (n & _ & En). left. now injection En.
      + cbn [length]. symmetry. apply volume_ones. rewrite slabs_length. intros i Hi. rewrite slabs_get by exact Hi.
        unfold B. rewrite (one_io_node E i Hi).
        assert (0 < get P i) by (apply HM; exact Hi).
        unfold ceil_div at 2. rewrite Nat.mod_1_r, Nat.div_1_r. cbn [Nat.eqb]. rewrite Nat.add_0_r.
        unfold ceil_div. rewrite Nat.mod_same, Nat.div_same by lia. reflexivity.
    - exists (map (fun k => node_of M (corner_of k)) (all_sites (slabs P g))).
      split; [|split; [|rewrite map_length; apply all_sites_length]].
      + apply NoDup_map_in; [apply all_sites_nodup|]. intros k k' Hk Hk' Ek. apply all_sites_in in Hk. apply all_sites_in in Hk'.
        apply corner_of_inj; auto. destruct (node_in _ (corner_of_in _ Hk)) as [_ C1].
        destruct (node_in _ (corner_of_in _ Hk')) as [_ C2]. congruence.
      + intros r. rewrite in_map_iff. split.
        * intros (k & <- & Hk). apply all_sites_in in Hk. exists (node_of M (corner_of k)).
          destruct (node_in _ (corner_of_in _ Hk)) as [Hn Cn]. split; [exact Hn|].
          rewrite no_shortcut by auto. now rewrite Cn, corner_corner_of.
        * intros (n & Hn & En). rewrite no_shortcut in En by auto. injection En as <-.
          exists (index_of (coord_of M n)). rewrite corner_index. split; [reflexivity|]. apply all_sites_in, index_of_in.
          now apply coord_in.
  Qed.

  Lemma slabs_le : volume (slabs P g) <= volume g.
  Proof.
    apply volume_le; rewrite slabs_length; [now rewrite Hl|]. intros i Hi. rewrite slabs_get by exact Hi.
    apply ceil_ceil_le; [apply HM; exact Hi|apply Hg; rewrite Hl; exact Hi].
  Qed.
  Lemma slabs_exact : (forall mu, mu < Nd -> Nat.divide (get g mu) (get P mu)) -> slabs P g = g.
  Proof.
    intros Hd. apply (nth_ext _ _ 0 0); [rewrite slabs_length; now rewrite Hl|]. rewrite slabs_length. intros i Hi.
    change (get (slabs P g) i = get g i). rewrite slabs_get by exact Hi.
    apply ceil_exact; auto; [apply HM; exact Hi|apply Hg; rewrite Hl; exact Hi].
  Qed.
End Grid.

Lemma mul_zero : forall l a, a = 0%Z \/ In 0%Z l -> fold_left Z.mul l a = 0%Z.
Proof.
  induction l as [|x l IH]; cbn; intros a H; [destruct H as [->|[]]; reflexivity|]; destruct H as [->|H].
  - apply IH. left. lia.
  - destruct H as [->|H]; apply IH; [left; lia|now right].
Qed.
Lemma zero_grid M g n : length g = length (mgrid M) -> In 0%Z g -> io_node M (Some g) n = Undef.
Proof.
  intros Hl H0. unfold io_node.
  assert (E : numIONodeGrid g = 0%Z).
  { unfold numIONodeGrid. destruct g as [|a l]; [destruct H0|]. cbn. apply mul_zero. destruct H0; auto. }
  rewrite E. change (0 =? 1)%Z with false. cbn [Z.eqb].
  unfold block_sizes. rewrite mapM_undef; [reflexivity| |].
  - intros mu _. unfold block_size, c_div, c_rem. destruct (nth mu g 0 =? 0)%Z; [left; reflexivity|].
    right. eexists. reflexivity.
  - apply In_nth with (d := 0%Z) in H0 as [i [Hi Ei]]. exists i. split; [apply in_seq; lia|].
    unfold block_size, c_div. now rewrite Ei.
Qed.

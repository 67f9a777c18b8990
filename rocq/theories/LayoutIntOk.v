(** Proofs about LayoutInt.v: no overflow while the volume fits an int. *)
From Coq Require Import List Arith ZArith Bool Lia.
From Verif Require Import Base LayoutModel LayoutSpec LayoutProofs LayoutInt.
Import ListNotations.

Definition ints (l : list nat) : list Z := map Z.of_nat l.
Definition fits (n : nat) : Prop := (Z.of_nat n < 2 ^ 31)%Z.

Lemma int_val z : (0 <= z < 2 ^ 31)%Z -> int z = Val z.
Proof.
  intros H. unfold int. replace (- 2 ^ 31 <=? z)%Z with true by (symmetry; apply Z.leb_le; lia).
  replace (z <? 2 ^ 31)%Z with true by (symmetry; apply Z.ltb_lt; lia). reflexivity.
Qed.
Lemma int_over z : (2 ^ 31 <= z)%Z -> int z = Undef.
Proof.
  intros H. unfold int. replace (z <? 2 ^ 31)%Z with false by (symmetry; apply Z.ltb_ge; lia).
  rewrite andb_false_r. reflexivity.
Qed.
Lemma nth_ints l i : nth i (ints l) 0%Z = Z.of_nat (get l i).
Proof. unfold ints, get. change 0%Z with (Z.of_nat 0). apply map_nth. Qed.
Lemma length_ints l : length (ints l) = length l.
Proof. apply map_length. Qed.

Lemma vol_loop_ok L : positive L -> forall v, 0 < v ->
  (fits (v * volume L) -> vol_loop (ints L) (Z.of_nat v) = Val (Z.of_nat (v * volume L))) /\
  (fits v -> ~ fits (v * volume L) -> vol_loop (ints L) (Z.of_nat v) = Undef).
Proof.
  rewrite positive_Forall. induction 1 as [|l L Hl HL IH]; intros v Hv; cbn [ints map vol_loop volume].
  - rewrite Nat.mul_1_r. split; [reflexivity|tauto].
  - fold (ints L). assert (P : 0 < volume L) by (apply volume_pos, positive_Forall; exact HL).
    destruct (IH (v * l) ltac:(nia)) as [A B]. rewrite Nat.mul_assoc.
    rewrite <- Nat2Z.inj_mul. destruct (Z.lt_ge_cases (Z.of_nat (v * l)) (2 ^ 31)) as [F|F].
    + rewrite int_val by (split; [apply Nat2Z.is_nonneg|exact F]). cbn [bind]. split; [exact A|].
      intros _. apply B. exact F.
    + rewrite int_over by exact F. split; [|reflexivity]. unfold fits. intros G. exfalso.
      assert (v * l <= v * l * volume L) by nia. lia.
Qed.

Lemma vol_int_ok L : positive L ->
  (fits (volume L) -> vol_int (ints L) = Val (Z.of_nat (volume L))) /\
  (~ fits (volume L) -> vol_int (ints L) = Undef).
Proof.
  intros H. destruct (vol_loop_ok L H 1 ltac:(lia)) as [A B]. rewrite Nat.mul_1_l in *. split; [exact A|].
  apply B. unfold fits. change (Z.of_nat 1) with 1%Z. lia.
Qed.

Lemma order_loop_app L c wrap a b o :
  order_loop L c wrap (a ++ b) o = bind (order_loop L c wrap a o) (order_loop L c wrap b).
Proof.
  revert o; induction a as [|x a IH]; intros o; cbn [app order_loop]; [reflexivity|].
  destruct (int _) as [s| |]; cbn [bind]; auto. destruct (int _) as [t| |]; cbn [bind]; auto.
Qed.

(** Each dimension's factor is the extent of the dimension visited after it. *)
Fixpoint chain (wrap : nat -> nat) (a : nat) (ds : list nat) : Prop :=
  match ds with [] => True | b :: r => wrap b = a /\ chain wrap b r end.

Lemma order_ok wrap L c ds : forall a, chain wrap a ds ->
  (forall d, In d (a :: ds) -> get c d < get L d) -> fits (prodd (a :: ds) L) ->
  order_loop (ints L) (ints c) wrap (rev ds) 0 = Val (Z.of_nat (get L a * val ds L c)).
Proof.
  induction ds as [|b r IH]; intros a Hc Hin F.
  - cbn [rev order_loop val]. rewrite Nat.mul_0_r. reflexivity.
  - destruct Hc as [W C].
    assert (La : get c a < get L a) by (apply Hin; left; reflexivity).
    assert (V : val (b :: r) L c < prodd (b :: r) L) by (apply val_lt; intros; apply Hin; right; assumption).
    assert (F' : fits (prodd (b :: r) L)).
    { unfold fits in *. cbn [prodd] in F. change (get L b * prodd r L) with (prodd (b :: r) L) in F. nia. }
    cbn [rev]. rewrite order_loop_app, (IH b C) by (auto; intros; apply Hin; right; assumption).
    cbn [bind order_loop]. rewrite !nth_ints, W, <- Nat2Z.inj_add.
    change (get c b + get L b * val r L c) with (val (b :: r) L c).
    rewrite int_val by (unfold fits in F'; lia). cbn [bind]. rewrite <- Nat2Z.inj_mul.
    rewrite int_val; [reflexivity|]. split; [apply Nat2Z.is_nonneg|]. unfold fits in F.
    change (prodd (a :: b :: r) L) with (get L a * prodd (b :: r) L) in F. nia.
Qed.

Lemma chain_seq wrap k a : (forall i, a < i -> wrap i = i - 1) -> chain wrap a (seq (S a) k).
Proof.
  revert a; induction k as [|k IH]; intros a H; cbn [seq chain]; [exact I|].
  split; [rewrite H by lia; lia|]. apply IH. intros i Hi. apply H. lia.
Qed.

Lemma local_site_int_ok k L c : 0 < length L -> in_lattice L c -> fits (volume L) ->
  local_site_int k (ints c) (ints L) = Val (Z.of_nat (local_site k c L)).
Proof.
  intros Hn Hc F. rewrite local_site_val by exact Hn.
  assert (Hd : forall d, In d (crt_dims k (length L)) -> get c d < get L d).
  { intros d Hd. apply crt_dims_in in Hd. apply in_lattice_get in Hc. apply Hc. exact Hd. }
  rewrite <- (prodd_dims k L) in F.
  assert (V : val (crt_dims k (length L)) L c < prodd (crt_dims k (length L)) L) by (apply val_lt; exact Hd).
  unfold local_site_int. rewrite length_ints.
  assert (G : forall wrap a ds, crt_dims k (length L) = a :: ds -> chain wrap a ds ->
    bind (order_loop (ints L) (ints c) wrap (rev ds) 0) (fun order => int (order + nth a (ints c) 0)%Z) =
    Val (Z.of_nat (val (crt_dims k (length L)) L c))).
  { intros wrap a ds E C. rewrite E in *. rewrite (order_ok wrap L c ds a C Hd F). cbn [bind].
    rewrite nth_ints, <- Nat2Z.inj_add, Nat.add_comm.
    change (get c a + get L a * val ds L c) with (val (a :: ds) L c).
    apply int_val. unfold fits in F. lia. }
  destruct k.
  1,2,4: apply (G (fun mu => mu - 1) 0 (seq 1 (length L - 1)));
    [cbn [crt_dims]; destruct (length L); [lia|]; cbn [seq]; f_equal; f_equal; lia|apply chain_seq; reflexivity].
  apply (G _ (length L - 1) (seq 0 (length L - 1))).
  - apply crt_dims_3d. exact Hn.
  - destruct (length L - 1) as [|m]; cbn [seq chain]; [exact I|]. split; [reflexivity|].
    apply chain_seq. intros [|i] Hi; [lia|reflexivity].
Qed.

Lemma upd_split i v l : i < length l -> ints (upd i v l) = firstn i (ints l) ++ Z.of_nat v :: skipn (S i) (ints l).
Proof.
  revert i; induction l as [|x l IH]; intros [|i] H; cbn [length upd ints map firstn skipn app] in *; try lia.
  - reflexivity.
  - f_equal. apply IH. lia.
Qed.

Lemma crt_loop_ok L ds : forall p c, fits p ->
  (forall d, In d ds -> d < length c /\ 0 < get L d /\ fits (get L d)) ->
  crt_loop (ints L) ds (Z.of_nat p) (ints c) = Val (ints (snd (fold_left (crt_step L) ds (p, c)))).
Proof.
  induction ds as [|d ds IH]; intros p c Fp H; cbn [crt_loop fold_left]; [reflexivity|].
  destruct (H d (or_introl eq_refl)) as [A [B C]]. rewrite nth_ints.
  replace (Z.of_nat (get L d) =? 0)%Z with false by (symmetry; apply Z.eqb_neq; lia).
  rewrite Z.rem_mod_nonneg, Z.quot_div_nonneg by lia. rewrite <- Nat2Z.inj_mod, <- Nat2Z.inj_div.
  assert (p mod get L d < get L d) by (apply Nat.mod_upper_bound; lia).
  assert (p / get L d <= p) by (apply Nat.div_le_upper_bound; nia).
  unfold fits in *. rewrite int_val by lia. cbn [bind].
  assert (Q : (Z.of_nat (p / get L d) < 2 ^ 31)%Z) by (eapply Z.le_lt_trans; [apply Nat2Z.inj_le; exact H1|exact Fp]).
  rewrite int_val by (split; [apply Nat2Z.is_nonneg|exact Q]). cbn [bind]. rewrite <- upd_split by exact A.
  cbn [crt_step]. apply IH; [exact Q|]. intros e He. rewrite length_upd. apply H. right. exact He.
Qed.

Lemma get_le_volume L i : positive L -> i < length L -> get L i <= volume L.
Proof.
  rewrite positive_Forall. intros H. revert i; induction H as [|l L Hl HL IH]; intros [|i] Hi; cbn [length volume] in *; try lia.
  - assert (0 < volume L) by (apply volume_pos, positive_Forall; exact HL). unfold get. cbn [nth]. nia.
  - change (get (l :: L) (S i)) with (get L i). specialize (IH i ltac:(lia)). nia.
Qed.

Lemma crtesn_int_ok k L p : positive L -> p < volume L -> fits (volume L) ->
  crtesn_int k (Z.of_nat p) (ints L) = Val (ints (crtesn k p L)).
Proof.
  intros HL Hp F. unfold crtesn_int, crtesn. rewrite length_ints.
  replace (repeat 0%Z (length L)) with (ints (repeat 0 (length L))).
  - apply crt_loop_ok; [unfold fits in *; lia|]. intros d Hd. apply crt_dims_in in Hd. rewrite repeat_length.
    pose proof (get_le_volume L d HL Hd). pose proof (HL d Hd). unfold fits in *. repeat split; try lia.
  - unfold ints. induction (length L); cbn [repeat map]; [reflexivity|]. f_equal. assumption.
Qed.

Lemma sum_le_volume L c : in_lattice L c -> list_sum c < volume L.
Proof.
  induction 1 as [|x l c L Hx Hc IH]; cbn [list_sum fold_right volume]; [lia|].
  change (fold_right Nat.add 0 c) with (list_sum c). nia.
Qed.

Lemma sum_loop_ok c : forall s, fits (s + list_sum c) ->
  sum_loop (ints c) (Z.of_nat s) = Val (Z.of_nat (s + list_sum c)).
Proof.
  induction c as [|x c IH]; intros s F; cbn [ints map sum_loop list_sum fold_right] in *.
  - rewrite Nat.add_0_r. reflexivity.
  - change (fold_right Nat.add 0 c) with (list_sum c) in *. fold (ints c).
    rewrite <- Nat2Z.inj_add, int_val by (unfold fits in F; lia). cbn [bind].
    rewrite IH; rewrite <- Nat.add_assoc; [reflexivity|exact F].
Qed.

Lemma sum_int_ok L c : in_lattice L c -> fits (volume L) -> sum_loop (ints c) 0 = Val (Z.of_nat (list_sum c)).
Proof.
  intros H F. apply (sum_loop_ok c 0). pose proof (sum_le_volume L c H). unfold fits in *. lia.
Qed.

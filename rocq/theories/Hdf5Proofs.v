(** Proofs about the model of HDF5 lattice datasets: geometry, block-wise transfer. *)
From Coq Require Import List Arith NArith Bool Lia Permutation.
From Verif Require Import Base LayoutModel LayoutSpec LayoutProofs LayoutOk CrcModel IoProofs LatIoModel LatIoSpec
  LatIoProofs LatIoOk IoNodeProofs Hdf5Model Hdf5Spec.
Import ListNotations.
Local Open Scope nat_scope.

(** ** Row-major order *)
Lemma flat_map_app_l {A B} (f : A -> list B) l l' : flat_map f (l ++ l') = flat_map f l ++ flat_map f l'.
Proof. induction l; cbn; [easy|]. now rewrite IHl, app_assoc. Qed.

Lemma flat_map_map_l {A B C} (f : B -> list C) (g : A -> B) l : flat_map f (map g l) = flat_map (fun x => f (g x)) l.
Proof. induction l; cbn; [easy|]. now rewrite IHl. Qed.

Lemma flat_map_flat {A B C} (f : A -> list B) (g : B -> list C) l :
  flat_map g (flat_map f l) = flat_map (fun x => flat_map g (f x)) l.
Proof. induction l; cbn; [easy|]. now rewrite flat_map_app_l, IHl. Qed.

Lemma map_flat_map {A B C} (f : A -> list B) (g : B -> C) l :
  map g (flat_map f l) = flat_map (fun x => map g (f x)) l.
Proof. induction l; cbn; [easy|]. now rewrite map_app, IHl. Qed.

Lemma flat_map_sing {A B} (f : A -> B) l : flat_map (fun x => [f x]) l = map f l.
Proof. induction l; cbn; [easy|]. now rewrite IHl. Qed.

Lemma flat_map_ext_in' {A B} (f g : A -> list B) l : (forall x, In x l -> f x = g x) -> flat_map f l = flat_map g l.
Proof. intros H. induction l as [|a l IH]; cbn; [easy|]. rewrite H by now left. rewrite IH; [easy|]. intros; apply H; now right. Qed.

Lemma row_major_app a : forall d, row_major (a ++ d) = flat_map (fun i => map (app i) (row_major d)) (row_major a).
Proof.
  induction a as [|n a IH]; intros d; cbn.
  - rewrite app_nil_r. symmetry. rewrite <- (map_id (row_major d)) at 2. now apply map_ext.
  - rewrite flat_map_flat. apply flat_map_ext. intros x. rewrite IH, flat_map_map_l, map_flat_map.
    apply flat_map_ext. intros y. now rewrite map_map.
Qed.

Lemma row_major_rev L : row_major (rev L) = map (@rev nat) (all_sites L).
Proof.
  induction L as [|l L IH]; cbn; [easy|].
  rewrite row_major_app, IH, flat_map_map_l, map_flat_map. apply flat_map_ext. intros c.
  cbn. rewrite flat_map_sing, !map_map. now apply map_ext.
Qed.

Lemma row_num_all d : map (row_num d) (row_major d) = seq 0 (volume d).
Proof.
  induction d as [|n d IH]; cbn; [easy|].
  rewrite map_flat_map. rewrite flat_map_ext with (g := fun i => seq (volume d * i) (volume d)).
  2:{ intros i. rewrite map_map. cbn. rewrite <- (Nat.add_0_r (volume d * i)), <- seq_add_map, <- IH, map_map.
      apply map_ext. intros c. lia. }
  rewrite flat_map_seq_blocks. f_equal; lia.
Qed.

Lemma row_major_in d i : In i (row_major d) <-> in_lattice d i.
Proof.
  unfold in_lattice. revert i. induction d as [|n d IH]; intros i; cbn.
  - split; [intros [<-|[]]; constructor|]. intros H. inversion H. now left.
  - rewrite in_flat_map. split.
    + intros (x & Hx & H). apply in_map_iff in H. destruct H as (c & <- & H). apply in_seq in Hx.
      constructor; [lia|]. now apply IH.
    + intros H. inversion H as [|x ? c ? Hx Hc]; subst. exists x. split; [apply in_seq; lia|].
      apply in_map_iff. exists c. split; [easy|]. now apply IH.
Qed.

Lemma row_major_length d : length (row_major d) = volume d.
Proof. rewrite <- (map_length (row_num d)), row_num_all. apply seq_length. Qed.

(** ** Hyperslabs *)
Lemma shift_length o : forall i, length o = length i -> length (shift o i) = length i.
Proof. induction o; intros [|x i] H; cbn in *; try lia. rewrite IHo; lia. Qed.

Lemma rel_shift o : forall l, length o = length l -> rel o (shift o l) = l.
Proof. induction o as [|a o IH]; intros [|x l] H; cbn in *; try lia; [easy|]. rewrite IH by lia. f_equal. lia. Qed.

Lemma in_slab_iff o : forall cnt i, length o = length cnt ->
  (in_slab o cnt i = true <-> exists l, in_lattice cnt l /\ i = shift o l).
Proof.
  unfold in_lattice. induction o as [|a o IH]; intros [|n cnt] i H; cbn in H; try lia.
  - destruct i; cbn; split; intros K; try discriminate; try easy.
    + exists []. split; [constructor|easy].
    + destruct K as (l & K & E). inversion K; subst. discriminate.
  - destruct i as [|x i]; cbn [in_slab shift].
    + split; [easy|]. intros (l & K & E). inversion K; subst. discriminate.
    + rewrite !andb_true_iff, Nat.leb_le, Nat.ltb_lt, IH by lia. split.
      * intros [[Ha Hb] (l & K & ->)]. exists ((x - a) :: l). split; [constructor; [lia|easy]|]. cbn. f_equal. lia.
      * intros (l & K & E). inversion K as [|y ? l' ? Hy Hl]; subst. cbn in E. injection E as -> ->.
        split; [lia|]. now exists l'.
Qed.

Lemma shift_app o : forall l o' l', length o = length l -> shift (o ++ o') (l ++ l') = shift o l ++ shift o' l'.
Proof. induction o; intros [|x l] o' l' H; cbn in *; try lia; [easy|]. now rewrite IHo by lia. Qed.

Lemma shift_rev o : forall l, length o = length l -> shift (rev o) (rev l) = rev (shift o l).
Proof.
  induction o as [|a o IH]; intros [|x l] H; cbn in *; try lia; [easy|].
  rewrite shift_app by (rewrite !rev_length; lia). now rewrite IH by lia.
Qed.

Lemma in_space_length dims : forall o c, in_space dims o c = true -> length o = length dims /\ length c = length dims.
Proof.
  induction dims as [|d dims IH]; intros [|a o] [|x c] H; cbn in H; try discriminate; [easy|].
  apply andb_true_iff in H. destruct H as [_ H]. apply IH in H. cbn. lia.
Qed.

(** ** Chunks *)
Lemma chunk_skip {A} p q n (l : list A) : chunk p n (skipn q l) = chunk (q + p) n l.
Proof. unfold chunk. now rewrite skipn_skipn'. Qed.

Lemma chunk_length {A} p n (l : list A) : p + n <= length l -> length (chunk p n l) = n.
Proof. intros H. unfold chunk. rewrite firstn_length, skipn_length. lia. Qed.

Lemma skipn_map' {A B} (f : A -> B) n l : skipn n (map f l) = map f (skipn n l).
Proof. revert l; induction n; intros [|x l]; cbn; try easy. Qed.

Lemma chunk_map {A B} (f : A -> B) p n l : chunk p n (map f l) = map f (chunk p n l).
Proof. unfold chunk. now rewrite skipn_map', firstn_map. Qed.

Lemma chunk_concat {A} n (ls : list (list A)) : (forall l, In l ls -> length l = n) ->
  forall k l, nth_error ls k = Some l -> chunk (k * n) n (concat ls) = l.
Proof.
  induction ls as [|a ls IH]; intros H [|k] l E; cbn in E; try discriminate.
  - injection E as ->. cbn. unfold chunk. cbn. rewrite firstn_app_l; [easy|]. apply H. now left.
  - cbn [concat]. unfold chunk. cbn [Nat.mul]. rewrite <- skipn_skipn', skipn_app_l by (apply H; now left).
    apply IH; [|easy]. intros; apply H; now right.
Qed.

Lemma concat_length_eq {A} n (ls : list (list A)) : (forall l, In l ls -> length l = n) -> length (concat ls) = n * length ls.
Proof.
  induction ls as [|a ls IH]; intros H; cbn; [lia|]. rewrite app_length, (H a) by now left.
  rewrite IH; [lia|]. intros; apply H; now right.
Qed.

Lemma chunk_chunk {A} p n q m (l : list A) : q + m <= n -> chunk q m (chunk p n l) = chunk (p + q) m l.
Proof.
  intros H. unfold chunk. rewrite skipn_firstn_comm, skipn_skipn', firstn_firstn. f_equal. lia.
Qed.

Lemma concat_chunks {A} n (l : list A) : forall k p, concat (map (fun j => chunk (p + j * n) n l) (seq 0 k)) = chunk p (k * n) l.
Proof.
  induction k; intros p; cbn [seq map concat Nat.mul]; [unfold chunk; easy|].
  rewrite <- seq_shift, map_map.
  rewrite map_ext with (g := fun j => chunk ((p + n) + j * n) n l) by (intros j; f_equal; cbn; lia).
  rewrite IHk. rewrite Nat.add_0_r. unfold chunk.
  rewrite <- skipn_skipn'. generalize (skipn p l) as s, (k * n) as m. clear.
  induction n; intros [|x s] m; cbn; try easy.
  - now rewrite firstn_nil.
  - f_equal. apply IHn.
Qed.

(** ** Splitting of transfers *)
Lemma shiftr1_div (n : N) k : N.shiftr (N.of_nat (N.to_nat n / 2 ^ k)) 1 = N.of_nat (N.to_nat n / 2 ^ S k).
Proof.
  rewrite N.shiftr_div_pow2. change (2 ^ 1)%N with (N.of_nat 2). rewrite <- Nat2N.inj_div. f_equal.
  rewrite Nat.div_div by (try apply Nat.pow_nonzero; lia). f_equal. cbn. lia.
Qed.

Lemma size_div n : n / 2 ^ N.size_nat (N.of_nat n) = 0.
Proof.
  apply Nat.div_small. assert (H := N.size_gt (N.of_nat n)).
  assert (E : N.size (N.of_nat n) = N.of_nat (N.size_nat (N.of_nat n))).
  { destruct (N.of_nat n) as [|p]; [easy|]. cbn [N.size N.size_nat]. clear. induction p; cbn [Pos.size Pos.size_nat]; lia. }
  rewrite E in H. change 2%N with (N.of_nat 2) in H. rewrite <- Nat2N.inj_pow in H. lia.
Qed.

Lemma split_ok unit total d0 k : halvings unit total k -> split_of unit total d0 = (total / 2 ^ k, d0 / 2 ^ k, 2 ^ k).
Proof.
  intros [Hk Hj]. unfold split_of.
  assert (G : forall fuel m, m <= k -> k <= fuel + m ->
    split fuel (N.of_nat unit) (N.of_nat (total / 2 ^ m)) (d0 / 2 ^ m) (2 ^ m) = (N.of_nat (total / 2 ^ k), d0 / 2 ^ k, 2 ^ k)).
  { induction fuel as [|f IH]; intros m Hm Hf.
    - assert (m = k) by lia. subst m. easy.
    - cbn [split]. destruct (Nat.eq_dec m k) as [->|Hn].
      + replace (two_gb <? _)%N with false; [easy|]. symmetry. apply N.ltb_ge. exact Hk.
      + replace (two_gb <? _)%N with true by (symmetry; apply N.ltb_lt, Hj; lia).
        rewrite <- (Nat2N.id total) at 1. rewrite shiftr1_div, Nat2N.id.
        replace (Nat.shiftr (d0 / 2 ^ m) 1) with (d0 / 2 ^ S m).
        2:{ rewrite shiftr1, Nat.div_div by (try apply Nat.pow_nonzero; lia). f_equal. cbn. lia. }
        replace (2 * 2 ^ m) with (2 ^ S m) by (cbn; lia). apply IH; lia. }
  specialize (G (N.size_nat (N.of_nat total)) 0).
  rewrite !Nat.pow_0_r, !Nat.div_1_r in G. rewrite G; [now rewrite Nat2N.id|lia|].
  destruct (le_lt_dec k (N.size_nat (N.of_nat total) + 0)) as [H|H]; [easy|]. exfalso.
  specialize (Hj (N.size_nat (N.of_nat total))). rewrite Nat.add_0_r in H. apply Hj in H. rewrite size_div in H. lia.
Qed.

Lemma halvings_ex unit total : exists k, halvings unit total k.
Proof.
  assert (G : forall m, (exists k, halvings unit total k) \/ forall j, j < m -> (2147483648 < N.of_nat (total / 2 ^ j) * N.of_nat unit)%N).
  { induction m as [|m [IH|IH]]; [right; lia|now left|].
    destruct (N.le_gt_cases (N.of_nat (total / 2 ^ m) * N.of_nat unit) 2147483648) as [H|H].
    - left. exists m. now split.
    - right. intros j Hj. destruct (Nat.eq_dec j m) as [->|]; [easy|]. apply IH. lia. }
  destruct (G (S (N.size_nat (N.of_nat total)))) as [H|H]; [easy|].
  specialize (H (N.size_nat (N.of_nat total)) (Nat.lt_succ_diag_r _)). rewrite size_div in H. lia.
Qed.

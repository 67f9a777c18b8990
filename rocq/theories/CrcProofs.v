(** Proofs about crc32. *)
From Coq Require Import List Arith NArith ZArith Bool Lia.
From Coq Require Import ZifyBool ZifyNat ZifyN.
From Verif Require Import Base CrcModel CrcSpec.
Import ListNotations.
Local Open Scope N_scope.

Definition POLY : N := 0xedb88320.
Notation T := (table_step POLY).

Ltac bits_eq := apply N.bits_inj; intro; rewrite ?N.lxor_spec, ?N.bits_0;
  repeat match goal with |- context [N.testbit ?x ?i] => destruct (N.testbit x i) end; try reflexivity.

Lemma poly_made : make_poly = POLY. Proof. reflexivity. Qed.
Lemma table_made : crc_table = make_crc_table. Proof. vm_compute. reflexivity. Qed.

(** ** The shift register *)
Lemma T_lxor a b : T (N.lxor a b) = N.lxor (T a) (T b).
Proof.
  unfold table_step. rewrite N.lxor_spec, N.shiftr_lxor.
  destruct (N.testbit a 0), (N.testbit b 0); cbn [xorb]; bits_eq.
Qed.
Lemma T_double y : T (2 * y) = y.
Proof.
  unfold table_step. rewrite N.testbit_even_0. rewrite N.shiftr_div_pow2. change (2 ^ 1) with 2.
  rewrite N.mul_comm, N.div_mul; lia.
Qed.
Lemma T_0 : T 0 = 0. Proof. reflexivity. Qed.

Lemma iter_S {A} (f : A -> A) n x : Nat.iter (S n) f x = f (Nat.iter n f x).
Proof. reflexivity. Qed.
Lemma iter_S_r {A} (f : A -> A) n x : Nat.iter (S n) f x = Nat.iter n f (f x).
Proof. induction n as [|n IH]; [reflexivity|]. now rewrite iter_S, IH, <- iter_S. Qed.
Lemma iter_add {A} (f : A -> A) n m x : Nat.iter (n + m) f x = Nat.iter n f (Nat.iter m f x).
Proof. induction n as [|n IH]; [reflexivity|]. cbn [Nat.add]. now rewrite !iter_S, IH. Qed.

Lemma iterT_lxor n a b : Nat.iter n T (N.lxor a b) = N.lxor (Nat.iter n T a) (Nat.iter n T b).
Proof. induction n as [|n IH]; [reflexivity|]. now rewrite !iter_S, IH, T_lxor. Qed.
Lemma iterT_shift n y : Nat.iter n T (2 ^ N.of_nat n * y) = y.
Proof.
  revert y. induction n as [|n IH]; intros y; [apply N.mul_1_l|].
  rewrite iter_S_r. replace (2 ^ N.of_nat (S n) * y) with (2 * (2 ^ N.of_nat n * y)).
  - rewrite T_double. apply IH.
  - rewrite Nat2N.inj_succ, N.pow_succ_r'. lia.
Qed.

Definition feed (s : N) (bs : list bool) : N := fold_left (fun s b => T (N.lxor s (N.b2n b))) bs s.

Lemma feed_cons s b bs : feed s (b :: bs) = feed (T (N.lxor s (N.b2n b))) bs.
Proof. reflexivity. Qed.
Lemma testbit_half D i : N.testbit (D / 2) i = N.testbit D (N.succ i).
Proof. change 2 with (2 ^ 1). rewrite <- N.shiftr_div_pow2, N.shiftr_spec'. f_equal. lia. Qed.
Lemma split_bit D : D = N.lxor (N.b2n (N.testbit D 0)) (2 * (D / 2)).
Proof.
  apply N.bits_inj. intro i. rewrite N.lxor_spec. destruct (N.eq_dec i 0) as [->|Hi].
  - rewrite N.testbit_even_0. destruct (N.testbit D 0); reflexivity.
  - replace i with (N.succ (i - 1)) by lia. rewrite N.testbit_even_succ by lia.
    rewrite testbit_half.
    destruct (N.testbit D 0); cbn [N.b2n]; [|rewrite N.bits_0; now destruct (N.testbit D (N.succ (i - 1)))].
    rewrite (N.bits_above_log2 1); [now destruct (N.testbit D (N.succ (i - 1)))|]. change (N.log2 1) with 0. lia.
Qed.

Lemma feed_word n : forall D s, D < 2 ^ N.of_nat n ->
  feed s (map (fun i => N.testbit D (N.of_nat i)) (seq 0 n)) = Nat.iter n T (N.lxor s D).
Proof.
  induction n as [|n IH]; intros D s HD.
  - cbn in HD. assert (D = 0) by lia. subst. cbn. now rewrite N.lxor_0_r.
  - cbn [seq map]. rewrite feed_cons.
    rewrite <- seq_shift, map_map.
    rewrite (map_ext _ (fun i => N.testbit (D / 2) (N.of_nat i))).
    2:{ intros i. rewrite Nat2N.inj_succ. symmetry. apply testbit_half. }
    rewrite IH.
    2:{ rewrite Nat2N.inj_succ, N.pow_succ_r' in HD. apply N.div_lt_upper_bound; lia. }
    rewrite iter_S_r. f_equal.
    replace (N.lxor s D) with (N.lxor (N.lxor s (N.b2n (N.testbit D 0))) (2 * (D / 2)))
      by (rewrite N.lxor_assoc, <- split_bit; reflexivity).
    rewrite (T_lxor _ (2 * (D / 2))), T_double. reflexivity.
Qed.

Lemma nth_map_seq0 {A} (f : nat -> A) n k d : (k < n)%nat -> nth k (map f (seq 0 n)) d = f k.
Proof. intros H. rewrite nth_indep with (d' := f 0%nat) by (rewrite map_length, seq_length; exact H).
  rewrite map_nth, seq_nth by exact H. reflexivity. Qed.

Lemma do1_feed c b : b < 256 -> do1 crc_table c b = feed c (byte_bits b).
Proof.
  intros Hb. unfold byte_bits. rewrite feed_word by exact Hb. unfold do1.
  rewrite table_made. set (s := N.lxor c b).
  assert (Hl : N.land s 255 < 256).
  { change 255 with (N.ones 8). rewrite N.land_ones. apply N.mod_upper_bound. discriminate. }
  unfold make_crc_table. rewrite nth_map_seq0 by lia.
  rewrite N2Nat.id, poly_made.
  assert (E : s = N.lxor (N.land s 255) (2 ^ N.of_nat 8 * N.shiftr s 8)).
  { apply N.bits_inj. intro i. rewrite N.lxor_spec, N.land_spec, N.mul_comm, <- N.shiftl_mul_pow2.
    destruct (N.lt_ge_cases i 8) as [Hi|Hi].
    - rewrite N.shiftl_spec_low by exact Hi. change 255 with (N.ones 8).
      rewrite N.ones_spec_low by exact Hi. destruct (N.testbit s i); reflexivity.
    - rewrite N.shiftl_spec_high' by exact Hi. rewrite N.shiftr_spec'. change 255 with (N.ones 8).
      rewrite N.ones_spec_high by exact Hi. change (N.of_nat 8) with 8. replace (i - 8 + 8) with i by lia.
      destruct (N.testbit s i); reflexivity. }
  rewrite E at 2. rewrite iterT_lxor, iterT_shift. f_equal. unfold s.
  rewrite N.shiftr_lxor. rewrite (N.shiftr_div_pow2 b). rewrite (N.div_small b) by exact Hb.
  now rewrite N.lxor_0_r.
Qed.

Lemma crc_loop_fold t : forall n buf c, (length buf <= n)%nat -> crc_loop t c buf = fold_left (do1 t) buf c.
Proof.
  induction n as [|n IH]; intros buf c H.
  - destruct buf; [reflexivity|cbn in H; lia].
  - destruct buf as [|b0 [|b1 [|b2 [|b3 [|b4 [|b5 [|b6 [|b7 rest]]]]]]]]; try reflexivity.
    cbn [crc_loop fold_left]. apply IH. cbn [length] in H. lia.
Qed.

Lemma feed_app s a b : feed s (a ++ b) = feed (feed s a) b.
Proof. apply fold_left_app. Qed.

Lemma crc_loop_feed buf c : bytes_ok buf -> crc_loop crc_table c buf = feed c (bits buf).
Proof.
  intros H. rewrite (crc_loop_fold _ (length buf)) by lia. revert c.
  induction H as [|b buf Hb H IH]; intros c; [reflexivity|].
  cbn [fold_left bits flat_map]. rewrite feed_app, IH, do1_feed by exact Hb. reflexivity.
Qed.

(** ** Words of 32 bits *)
Lemma lt_pow2_bits a n : (forall i, n <= i -> N.testbit a i = false) -> a < 2 ^ n.
Proof.
  intros H. destruct (N.eq_dec a 0) as [->|Ha]; [apply N.neq_0_lt_0, N.pow_nonzero; lia|].
  apply N.log2_lt_pow2; [lia|]. destruct (N.lt_ge_cases (N.log2 a) n) as [L|L]; [exact L|].
  specialize (H _ L). rewrite N.bit_log2 in H by exact Ha. discriminate.
Qed.
Lemma bits_lt a n i : a < 2 ^ n -> n <= i -> N.testbit a i = false.
Proof.
  intros H Hi. destruct (N.eq_dec a 0) as [->|Ha]; [apply N.bits_0|].
  apply N.bits_above_log2. apply N.log2_lt_pow2 in H; lia.
Qed.

Lemma lxor_lt a b n : a < 2 ^ n -> b < 2 ^ n -> N.lxor a b < 2 ^ n.
Proof.
  intros Ha Hb. apply lt_pow2_bits. intros i Hi. rewrite N.lxor_spec, (bits_lt a n), (bits_lt b n) by assumption.
  reflexivity.
Qed.

Lemma T_lt s : s < 2 ^ 32 -> T s < 2 ^ 32.
Proof.
  intros H. unfold table_step.
  assert (Hs : N.shiftr s 1 < 2 ^ 32).
  { rewrite N.shiftr_div_pow2. apply N.div_lt_upper_bound; [discriminate|]. change (2 ^ 1) with 2. lia. }
  destruct (N.testbit s 0); [apply lxor_lt; [reflexivity|exact Hs]|exact Hs].
Qed.
Lemma T_inj0 s : s < 2 ^ 32 -> T s = 0 -> s = 0.
Proof.
  intros H E. assert (E31 : N.testbit (T s) 31 = N.testbit s 0).
  { unfold table_step. assert (Hs : N.testbit (N.shiftr s 1) 31 = false).
    { rewrite N.shiftr_spec'. apply (bits_lt s 32); [exact H|lia]. }
    destruct (N.testbit s 0); [rewrite N.lxor_spec, Hs; reflexivity|exact Hs]. }
  rewrite E, N.bits_0 in E31. unfold table_step in E. rewrite <- E31 in E.
  rewrite (split_bit s), <- E31. cbn [N.b2n]. rewrite N.shiftr_div_pow2 in E. change (2 ^ 1) with 2 in E.
  rewrite E. reflexivity.
Qed.
Lemma iterT_lt n s : s < 2 ^ 32 -> Nat.iter n T s < 2 ^ 32.
Proof. intros H. induction n; [exact H|]. rewrite iter_S. apply T_lt, IHn. Qed.
Lemma iterT_inj0 n s : s < 2 ^ 32 -> Nat.iter n T s = 0 -> s = 0.
Proof.
  intros H. induction n as [|n IH]; [auto|]. rewrite iter_S. intros E. apply IH.
  apply T_inj0; [apply iterT_lt, H|exact E].
Qed.
Lemma b2n_lt b : N.b2n b < 2 ^ 32. Proof. destruct b; reflexivity. Qed.
Lemma feed_lt bs : forall s, s < 2 ^ 32 -> feed s bs < 2 ^ 32.
Proof.
  induction bs as [|b bs IH]; intros s H; [exact H|]. rewrite feed_cons. apply IH, T_lt, lxor_lt;
  [exact H|apply b2n_lt].
Qed.

(** ** Division of polynomials *)
Lemma poly_of_snoc bs b : poly_of (bs ++ [b]) = 2 * poly_of bs + N.b2n b.
Proof. unfold poly_of. rewrite fold_left_app. reflexivity. Qed.
Lemma poly_of_bit bs : forall i, N.testbit (poly_of bs) i =
  if i <? N.of_nat (length bs) then nth (length bs - 1 - N.to_nat i) bs false else false.
Proof.
  induction bs as [|b bs IH] using rev_ind; intros i.
  - cbn. destruct i; reflexivity.
  - rewrite poly_of_snoc, app_length. cbn [length]. destruct (N.eq_dec i 0) as [->|Hi].
    + rewrite N.testbit_0_r. destruct (N.ltb_spec 0 (N.of_nat (length bs + 1))); [|lia].
      cbn [N.to_nat]. replace (length bs + 1 - 1 - 0)%nat with (length bs) by lia.
      now rewrite app_nth2, Nat.sub_diag by lia.
    + replace i with (N.succ (i - 1)) at 1 by lia. rewrite N.testbit_succ_r, IH.
      destruct (N.ltb_spec (i - 1) (N.of_nat (length bs))), (N.ltb_spec i (N.of_nat (length bs + 1))); try lia.
      rewrite app_nth1 by lia. f_equal. lia.
Qed.
Lemma reflect32_bit w i : N.testbit (reflect32 w) i = if i <? 32 then N.testbit w (31 - i) else false.
Proof.
  unfold reflect32. rewrite poly_of_bit, map_length, seq_length. change (N.of_nat 32) with 32.
  destruct (N.ltb_spec i 32); [|reflexivity]. rewrite nth_map_seq0 by lia. f_equal. lia.
Qed.
Lemma reflect32_lt w : reflect32 w < 2 ^ 32.
Proof. apply lt_pow2_bits. intros i Hi. rewrite reflect32_bit. destruct (N.ltb_spec i 32); [lia|reflexivity]. Qed.
Lemma reflect32_inv w : w < 2 ^ 32 -> reflect32 (reflect32 w) = w.
Proof.
  intros H. apply N.bits_inj. intro i. rewrite !reflect32_bit. destruct (N.ltb_spec i 32).
  - destruct (N.ltb_spec (31 - i) 32); [|lia]. f_equal. lia.
  - symmetry. apply (bits_lt w 32); lia.
Qed.
Lemma reflect32_lxor a b : reflect32 (N.lxor a b) = N.lxor (reflect32 a) (reflect32 b).
Proof.
  apply N.bits_inj. intro i. rewrite N.lxor_spec, !reflect32_bit, N.lxor_spec.
  destruct (i <? 32); reflexivity.
Qed.

Lemma pmul_double q g : pmul (2 * q) g = 2 * pmul q g.
Proof. destruct q; reflexivity. Qed.
Lemma pmul_succ_double q g : pmul (2 * q + 1) g = N.lxor g (2 * pmul q g).
Proof. destruct q; [cbn; now rewrite N.lxor_0_r|reflexivity]. Qed.
Lemma double_lxor a b : 2 * N.lxor a b = N.lxor (2 * a) (2 * b).
Proof. rewrite !(N.mul_comm 2). change 2 with (2 ^ 1). rewrite <- !N.shiftl_mul_pow2. apply N.shiftl_lxor. Qed.
Lemma mul_pow_lxor a b n : N.lxor a b * 2 ^ n = N.lxor (a * 2 ^ n) (b * 2 ^ n).
Proof. rewrite <- !N.shiftl_mul_pow2. apply N.shiftl_lxor. Qed.
Lemma double_add_b2n a b : 2 * a + N.b2n b = N.lxor (2 * a) (N.b2n b).
Proof.
  apply N.bits_inj. intro i. rewrite N.lxor_spec. destruct (N.eq_dec i 0) as [->|Hi].
  - rewrite N.testbit_0_r, N.testbit_even_0. destruct b; reflexivity.
  - replace i with (N.succ (i - 1)) by lia. rewrite N.testbit_succ_r, N.testbit_even_succ by lia.
    rewrite (bits_lt (N.b2n b) 1); [now rewrite xorb_false_r|destruct b; reflexivity|lia].
Qed.

Lemma generator_bit i : i < 32 -> N.testbit generator (31 - i) = N.testbit POLY i.
Proof.
  intros H. transitivity (N.testbit (reflect32 generator) i).
  - rewrite reflect32_bit. destruct (N.ltb_spec i 32); [reflexivity|lia].
  - reflexivity.
Qed.

Lemma step_divides r m : r < 2 ^ 32 ->
  exists f r', r' < 2 ^ 32 /\ T (N.lxor (reflect32 r) (N.b2n m)) = reflect32 r' /\
    N.lxor (2 * r) (N.b2n m * 2 ^ 32) = N.lxor (if f : bool then generator else 0) r'.
Proof.
  intros H. set (f := xorb (N.testbit r 31) m). exists f.
  set (g := if f then generator else 0).
  exists (N.lxor g (N.lxor (2 * r) (N.b2n m * 2 ^ 32))).
  assert (B : forall i, N.testbit (N.b2n m * 2 ^ 32) i = (i =? 32) && m).
  { intros i. rewrite <- N.shiftl_mul_pow2. destruct (N.lt_ge_cases i 32) as [Hi|Hi].
    - rewrite N.shiftl_spec_low by exact Hi. destruct (N.eqb_spec i 32); [lia|reflexivity].
    - rewrite N.shiftl_spec_high' by exact Hi. destruct (N.eqb_spec i 32) as [->|Hn].
      + destruct m; reflexivity.
      + apply (bits_lt _ 1); [destruct m; reflexivity|lia]. }
  assert (D : forall i, i <> 0 -> N.testbit (2 * r) i = N.testbit r (i - 1)).
  { intros i Hi. replace i with (N.succ (i - 1)) at 1 by lia. apply N.testbit_even_succ. lia. }
  split; [|split].
  - apply lt_pow2_bits. intros i Hi. rewrite !N.lxor_spec, B, D by lia.
    destruct (N.eqb_spec i 32) as [->|Hn].
    + change (32 - 1) with 31. unfold g, f. destruct (N.testbit r 31), m; reflexivity.
    + rewrite (bits_lt r 32) by lia. unfold g. destruct f; [|rewrite N.bits_0; reflexivity].
      rewrite (bits_lt generator 33); [reflexivity|reflexivity|lia].
  - apply N.bits_inj. intro i.
    assert (E0 : N.testbit (N.lxor (reflect32 r) (N.b2n m)) 0 = f).
    { rewrite N.lxor_spec, reflect32_bit. cbn. change (31 - 0) with 31. unfold f. destruct m; reflexivity. }
    assert (ES : N.testbit (N.shiftr (N.lxor (reflect32 r) (N.b2n m)) 1) i = N.testbit (reflect32 r) (i + 1)).
    { rewrite N.shiftr_spec', N.lxor_spec, (bits_lt (N.b2n m) 1); [apply xorb_false_r|destruct m; reflexivity|lia]. }
    assert (TT : N.testbit (T (N.lxor (reflect32 r) (N.b2n m))) i
                 = xorb (f && N.testbit POLY i) (N.testbit (reflect32 r) (i + 1))).
    { unfold table_step. rewrite E0. destruct f; [rewrite N.lxor_spec|]; rewrite ES; [reflexivity|].
      now destruct (N.testbit (reflect32 r) (i + 1)). }
    rewrite TT, !reflect32_bit. destruct (N.ltb_spec i 32) as [Hi|Hi].
    + rewrite !N.lxor_spec, B. destruct (N.eqb_spec (31 - i) 32); [lia|]. cbn [andb]. rewrite xorb_false_r.
      f_equal.
      * rewrite <- generator_bit by exact Hi. unfold g. destruct f; [reflexivity|now rewrite N.bits_0].
      * destruct (N.ltb_spec (i + 1) 32).
        -- rewrite D by lia. f_equal. lia.
        -- replace (31 - i) with 0 by lia. symmetry. apply N.testbit_even_0.
    + rewrite (bits_lt POLY 32); [|reflexivity|exact Hi]. destruct (N.ltb_spec (i + 1) 32); [lia|].
      destruct f; reflexivity.
  - bits_eq.
Qed.

Lemma feed_divides s bs : s < 2 ^ 32 -> exists q r, r < 2 ^ 32 /\ feed s bs = reflect32 r /\
  N.lxor (poly_of bs * 2 ^ 32) (reflect32 s * 2 ^ N.of_nat (length bs)) = N.lxor (pmul q generator) r.
Proof.
  intros H. induction bs as [|m bs IH] using rev_ind.
  - exists 0, (reflect32 s). split; [apply reflect32_lt|]. split; [symmetry; apply reflect32_inv, H|].
    cbn [length N.of_nat]. rewrite N.mul_1_r. reflexivity.
  - destruct IH as (q & r & Hr & Ef & Eq).
    destruct (step_divides r m Hr) as (f & r' & Hr' & Et & Es).
    exists (2 * q + N.b2n f), r'. split; [exact Hr'|]. split.
    + rewrite feed_app. unfold feed at 1. cbn [fold_left]. fold (feed s bs). rewrite Ef. exact Et.
    + rewrite poly_of_snoc, double_add_b2n, mul_pow_lxor, app_length. cbn [length].
      rewrite Nat.add_1_r, Nat2N.inj_succ, N.pow_succ_r'.
      replace (2 * poly_of bs * 2 ^ 32) with (2 * (poly_of bs * 2 ^ 32)) by lia.
      replace (reflect32 s * (2 * 2 ^ N.of_nat (length bs))) with (2 * (reflect32 s * 2 ^ N.of_nat (length bs))) by lia.
      rewrite (N.lxor_assoc _ (N.b2n m * 2 ^ 32)), (N.lxor_comm (N.b2n m * 2 ^ 32)), <- N.lxor_assoc.
      rewrite <- double_lxor, Eq, double_lxor, N.lxor_assoc, Es.
      destruct f; cbn [N.b2n].
      * rewrite pmul_succ_double. rewrite <- N.lxor_assoc, (N.lxor_comm (2 * pmul q generator)). reflexivity.
      * rewrite N.add_0_r, pmul_double, N.lxor_0_l. reflexivity.
Qed.

Lemma bits_length bs : length (bits bs) = (8 * length bs)%nat.
Proof. induction bs as [|b bs IH]; [reflexivity|]. cbn [bits flat_map]. rewrite app_length.
  fold (bits bs). rewrite IH. cbn [length byte_bits map seq]. lia. Qed.

(** C31 *)
Lemma crc32_spec c buf : c < 2 ^ 32 -> bytes_ok buf -> is_crc32 c buf (crc32 c (Some buf)).
Proof.
  intros Hc H. assert (Hs : N.lxor c ones32 < 2 ^ 32) by (apply lxor_lt; [exact Hc|reflexivity]).
  destruct (feed_divides (N.lxor c ones32) (bits buf) Hs) as (q & r & Hr & Ef & Eq).
  exists q, r. split; [exact Hr|]. split.
  - rewrite bits_length, Nat2N.inj_mul in Eq. exact Eq.
  - unfold crc32. rewrite crc_loop_feed by exact H. change 0xffffffff with ones32. now rewrite Ef.
Qed.

(** The specification determines the checksum. *)
Lemma pmul_pos_size q g : g <> 0 -> N.log2 g + N.log2 (Npos q) = N.log2 (pmul_pos q g) /\ pmul_pos q g <> 0.
Proof.
  intros Hg. induction q as [q [IH IH0]|q [IH IH0]|].
  - cbn [pmul_pos]. rewrite N.double_spec.
    assert (E : N.log2 (2 * pmul_pos q g) = N.succ (N.log2 (pmul_pos q g))).
    { apply N.log2_double. lia. }
    assert (E2 : N.log2 (Npos q~1) = N.succ (N.log2 (Npos q))).
    { change (Npos q~1) with (2 * Npos q + 1). apply N.log2_succ_double. lia. }
    assert (L : N.log2 (N.lxor g (2 * pmul_pos q g)) = N.log2 (2 * pmul_pos q g)).
    { set (y := 2 * pmul_pos q g) in *.
      assert (Hlt : N.log2 g < N.log2 y) by lia.
      assert (Hy : y <> 0) by (unfold y; lia).
      assert (B : N.testbit (N.lxor g y) (N.log2 y) = true).
      { rewrite N.lxor_spec, N.bit_log2 by exact Hy. rewrite N.bits_above_log2 by exact Hlt. reflexivity. }
      apply N.le_antisymm.
      - etransitivity; [apply N.log2_lxor|]. lia.
      - destruct (N.lt_ge_cases (N.log2 (N.lxor g y)) (N.log2 y)) as [C|C]; [|exact C].
        rewrite N.bits_above_log2 in B by exact C. discriminate. }
    split; [lia|]. intros Z. rewrite Z, E in L. change (N.log2 0) with 0 in L. lia.
  - cbn [pmul_pos]. rewrite N.double_spec. change (Npos q~0) with (2 * Npos q).
    rewrite !N.log2_double by lia. split; lia.
  - cbn [pmul_pos]. cbn. split; [lia|exact Hg].
Qed.
Lemma pmul_bit q b g : pmul (N.lxor (2 * q) (N.b2n b)) g = N.lxor (if b then g else 0) (2 * pmul q g).
Proof.
  rewrite <- double_add_b2n. destruct b; cbn [N.b2n]; [apply pmul_succ_double|].
  now rewrite N.add_0_r, pmul_double, N.lxor_0_l.
Qed.
Lemma lxor_bits a b x y : N.lxor (N.lxor (2 * a) (N.b2n x)) (N.lxor (2 * b) (N.b2n y))
  = N.lxor (2 * N.lxor a b) (N.b2n (xorb x y)).
Proof.
  rewrite double_lxor. replace (N.b2n (xorb x y)) with (N.lxor (N.b2n x) (N.b2n y)) by (destruct x, y; reflexivity).
  bits_eq.
Qed.
Lemma pmul_lxor a : forall b g, pmul (N.lxor a b) g = N.lxor (pmul a g) (pmul b g).
Proof.
  assert (step : forall a x, (forall b g, pmul (N.lxor a b) g = N.lxor (pmul a g) (pmul b g)) ->
    forall b g, pmul (N.lxor (N.lxor (2 * a) (N.b2n x)) b) g = N.lxor (pmul (N.lxor (2 * a) (N.b2n x)) g) (pmul b g)).
  { intros a0 x IH b g. rewrite (split_bit b), (N.lxor_comm (N.b2n (N.testbit b 0))).
    rewrite lxor_bits, !pmul_bit, IH, double_lxor. destruct x, (N.testbit b 0); cbn [xorb]; bits_eq. }
  induction a as [|a IH|a IH] using N.binary_ind.
  - intros b g. cbn [pmul]. now rewrite !N.lxor_0_l.
  - replace (N.double a) with (N.lxor (2 * a) (N.b2n false)) by (rewrite N.lxor_0_r; symmetry; apply N.double_spec).
    apply step, IH.
  - replace (N.succ_double a) with (N.lxor (2 * a) (N.b2n true))
      by (rewrite <- double_add_b2n; symmetry; apply N.succ_double_spec).
    apply step, IH.
Qed.
Lemma is_crc32_unique c buf c1 c2 : is_crc32 c buf c1 -> is_crc32 c buf c2 -> c1 = c2.
Proof.
  intros (q1 & r1 & H1 & E1 & ->) (q2 & r2 & H2 & E2 & ->). do 2 f_equal.
  rewrite E1 in E2.
  assert (E : pmul (N.lxor q1 q2) generator = N.lxor r1 r2).
  { rewrite pmul_lxor. apply N.bits_inj. intro i. apply (f_equal (fun x => N.testbit x i)) in E2.
    rewrite !N.lxor_spec in *.
    destruct (N.testbit (pmul q1 generator) i), (N.testbit (pmul q2 generator) i), (N.testbit r1 i), (N.testbit r2 i);
      try reflexivity; discriminate. }
  assert (L : N.lxor r1 r2 < 2 ^ 32) by (apply lxor_lt; assumption).
  destruct (N.lxor q1 q2) as [|q] eqn:Eq.
  - cbn [pmul] in E. symmetry in E. now apply N.lxor_eq in E.
  - exfalso. cbn [pmul] in E. destruct (pmul_pos_size q generator ltac:(discriminate)) as [P1 P2].
    rewrite E in P1, P2. apply N.log2_lt_pow2 in L; [|lia]. change (N.log2 generator) with 32 in P1. lia.
Qed.

(** Composition. *)
Lemma lxor_ones_ones x : N.lxor (N.lxor x 0xffffffff) 0xffffffff = x.
Proof. now rewrite N.lxor_assoc, N.lxor_nilpotent, N.lxor_0_r. Qed.
Lemma crc32_app c a b : crc32 (crc32 c (Some a)) (Some b) = crc32 c (Some (a ++ b)).
Proof.
  unfold crc32. rewrite lxor_ones_ones, !(crc_loop_fold _ (length (a ++ b))); rewrite ?app_length; try lia.
  now rewrite fold_left_app.
Qed.
Lemma crc32_nil c : crc32 c (Some []) = c.
Proof. unfold crc32. cbn [crc_loop fold_left]. apply lxor_ones_ones. Qed.
Lemma crc32_lt c buf : c < 2 ^ 32 -> bytes_ok buf -> crc32 c (Some buf) < 2 ^ 32.
Proof.
  intros Hc H. unfold crc32. rewrite crc_loop_feed by exact H.
  apply lxor_lt; [apply feed_lt, lxor_lt; [exact Hc|reflexivity]|reflexivity].
Qed.

(** ** Detection *)
Lemma feed_lxor xs : forall ys s t, length xs = length ys ->
  N.lxor (feed s xs) (feed t ys) = feed (N.lxor s t) (map (fun p => xorb (fst p) (snd p)) (combine xs ys)).
Proof.
  induction xs as [|x xs IH]; intros [|y ys] s t L; try discriminate; [reflexivity|].
  cbn [combine map fst snd]. rewrite !feed_cons, IH by (cbn in L; lia).
  f_equal. rewrite <- T_lxor. f_equal. destruct x, y; cbn [N.b2n xorb]; bits_eq;
  repeat match goal with |- context [N.testbit ?x ?i] => destruct (N.testbit x i) end; reflexivity.
Qed.
Lemma feed_zeros n s : feed s (repeat false n) = Nat.iter n T s.
Proof.
  revert s. induction n as [|n IH]; intros s; [reflexivity|]. cbn [repeat]. rewrite feed_cons, IH. cbn [N.b2n]. rewrite N.lxor_0_r. symmetry. apply iter_S_r.
Qed.

Definition word_of (bs : list bool) : N := fold_right (fun b w => N.b2n b + 2 * w) 0 bs.
Lemma word_of_lt bs : word_of bs < 2 ^ N.of_nat (length bs).
Proof.
  induction bs as [|b bs IH]; [reflexivity|]. cbn [word_of fold_right length]. fold (word_of bs).
  rewrite Nat2N.inj_succ, N.pow_succ_r'. destruct b; cbn [N.b2n]; lia.
Qed.
Lemma word_of_bits bs : map (fun i => N.testbit (word_of bs) (N.of_nat i)) (seq 0 (length bs)) = bs.
Proof.
  induction bs as [|b bs IH]; [reflexivity|]. cbn [length seq map].
  cbn [word_of fold_right]. fold (word_of bs). rewrite N.add_comm. f_equal.
  - apply N.testbit_0_r.
  - rewrite <- seq_shift, map_map. rewrite <- IH at 2. apply map_ext. intros i.
    rewrite Nat2N.inj_succ. apply N.testbit_succ_r.
Qed.
Lemma feed_list s bs : feed s bs = Nat.iter (length bs) T (N.lxor s (word_of bs)).
Proof. rewrite <- (word_of_bits bs) at 1. apply feed_word, word_of_lt. Qed.
Lemma word_of_0 bs : word_of bs = 0 -> bs = repeat false (length bs).
Proof.
  induction bs as [|b bs IH]; intros H; [reflexivity|]. cbn [word_of fold_right] in H. fold (word_of bs) in H.
  destruct b; cbn [N.b2n] in H; [lia|]. cbn [length repeat]. f_equal. apply IH. lia.
Qed.

Lemma xor_self xs : map (fun p => xorb (fst p) (snd p)) (combine xs xs) = repeat false (length xs).
Proof. induction xs as [|x xs IH]; [reflexivity|]. cbn. now rewrite IH, xorb_nilpotent. Qed.
Lemma xor_zero_eq xs : forall ys, length xs = length ys ->
  map (fun p => xorb (fst p) (snd p)) (combine xs ys) = repeat false (length xs) -> xs = ys.
Proof.
  induction xs as [|x xs IH]; intros [|y ys] L H; try discriminate; [reflexivity|].
  cbn in H. injection H as H1 H2. f_equal; [destruct x, y; cbn in H1; congruence|]. apply IH; [cbn in L; lia|exact H2].
Qed.

Lemma feed_differs s t xs ys p sfx : s = t -> s < 2 ^ 32 -> length xs = length ys -> (length xs <= 32)%nat -> xs <> ys ->
  feed s (p ++ xs ++ sfx) <> feed t (p ++ ys ++ sfx).
Proof.
  intros <- Hs L L32 Hne E. rewrite !feed_app in E. set (s0 := feed s p) in *.
  apply N.lxor_eq_0_iff in E. rewrite feed_lxor in E by reflexivity. rewrite xor_self, feed_zeros in E.
  rewrite feed_lxor in E by exact L. rewrite N.lxor_nilpotent in E.
  set (d := map (fun p => xorb (fst p) (snd p)) (combine xs ys)) in *.
  assert (Ld : length d = length xs) by (unfold d; rewrite map_length, combine_length, <- L; lia).
  apply iterT_inj0 in E; [|apply feed_lt; reflexivity].
  rewrite feed_list, N.lxor_0_l in E. apply iterT_inj0 in E.
  - apply word_of_0 in E. rewrite Ld in E. apply Hne. apply xor_zero_eq; assumption.
  - eapply N.lt_le_trans; [apply word_of_lt|]. apply N.pow_le_mono_r; [discriminate|]. lia.
Qed.

Lemma crc32_eq_feed c a b : bytes_ok a -> bytes_ok b -> crc32 c (Some a) = crc32 c (Some b) ->
  feed (N.lxor c ones32) (bits a) = feed (N.lxor c ones32) (bits b).
Proof.
  intros Ha Hb E. unfold crc32 in E. rewrite !crc_loop_feed in E by assumption.
  apply (f_equal (fun x => N.lxor x 0xffffffff)) in E. now rewrite !lxor_ones_ones in E.
Qed.

(** C32: bursts *)
Lemma burst_detected c a b p xs ys sfx : c < 2 ^ 32 -> bytes_ok a -> bytes_ok b ->
  bits a = p ++ xs ++ sfx -> bits b = p ++ ys ++ sfx -> length xs = length ys -> (length xs <= 32)%nat -> xs <> ys ->
  crc32 c (Some a) <> crc32 c (Some b).
Proof.
  intros Hc Ha Hb Ea Eb L L32 Hne E. apply crc32_eq_feed in E; try assumption. rewrite Ea, Eb in E.
  revert E. apply feed_differs; auto. apply lxor_lt; [exact Hc|reflexivity].
Qed.
Lemma byte_bits_inj x y : x < 256 -> y < 256 -> byte_bits x = byte_bits y -> x = y.
Proof.
  intros Hx Hy E. apply N.bits_inj. intro i. destruct (N.lt_ge_cases i 8) as [Hi|Hi].
  - apply (f_equal (fun l => nth (N.to_nat i) l false)) in E. unfold byte_bits in E.
    rewrite !nth_map_seq0 in E by lia. now rewrite !N2Nat.id in E.
  - rewrite (bits_lt x 8), (bits_lt y 8); auto.
Qed.
Lemma bits_inj a : forall b, bytes_ok a -> bytes_ok b -> bits a = bits b -> a = b.
Proof.
  induction a as [|x a IH]; intros [|y b] Ha Hb E; try discriminate; [reflexivity|].
  inversion Ha; inversion Hb; subst. cbn [bits flat_map] in E.
  apply app_inj_tail_iff in E || idtac.
  assert (E1 : byte_bits x = byte_bits y /\ bits a = bits b).
  { change (flat_map byte_bits a) with (bits a) in E. change (flat_map byte_bits b) with (bits b) in E.
    split.
    - apply (f_equal (firstn 8)) in E. exact E.
    - apply (f_equal (skipn 8)) in E. exact E. }
  destruct E1 as [E1 E2]. f_equal; [apply byte_bits_inj; assumption|apply IH; assumption].
Qed.
Lemma bytes_detected c p xs ys sfx : c < 2 ^ 32 -> bytes_ok (p ++ xs ++ sfx) -> bytes_ok (p ++ ys ++ sfx) ->
  length xs = length ys -> (length xs <= 4)%nat -> xs <> ys ->
  crc32 c (Some (p ++ xs ++ sfx)) <> crc32 c (Some (p ++ ys ++ sfx)).
Proof.
  intros Hc Ha Hb L L4 Hne. apply (burst_detected c _ _ (bits p) (bits xs) (bits ys) (bits sfx)); auto.
  - unfold bits. now rewrite !flat_map_app.
  - unfold bits. now rewrite !flat_map_app.
  - rewrite !bits_length. lia.
  - rewrite bits_length. lia.
  - intros E. apply Hne. apply bits_inj; [| |exact E].
    + unfold bytes_ok in *. rewrite !Forall_app in Ha. apply Ha.
    + unfold bytes_ok in *. rewrite !Forall_app in Hb. apply Hb.
Qed.

From Coq Require Import List Arith ZArith Bool Lia Permutation.
From Coq Require Import ZifyBool ZifyNat Zpow_facts.
From Verif Require Import Base LayoutModel LayoutSpec LayoutProofs LayoutOk EvalModel EvalSpec EvalProofs
  RngModel RngSpec.
Import ListNotations.
Local Open Scope Z_scope.
Ltac Zify.zify_post_hook ::= Z.div_mod_to_equations.

Lemma land4095 x : Z.land x 4095 = x mod 4096.
Proof. change 4095 with (Z.ones 12). rewrite Z.land_ones by lia. reflexivity. Qed.
Lemma land2047 x : Z.land x 2047 = x mod 2048.
Proof. change 2047 with (Z.ones 11). rewrite Z.land_ones by lia. reflexivity. Qed.
Lemma shiftr12 x : Z.shiftr x 12 = x / 4096.
Proof. rewrite Z.shiftr_div_pow2 by lia. reflexivity. Qed.
Lemma shiftr24 x : Z.shiftr x 24 = x / 16777216.
Proof. rewrite Z.shiftr_div_pow2 by lia. reflexivity. Qed.

Ltac pow2 := change (2 ^ 12) with 4096 in *; change (2 ^ 11) with 2048 in *;
  change (2 ^ 24) with 16777216 in *; change (2 ^ 36) with 68719476736 in *;
  change (2 ^ 47) with 140737488355328 in *; change (2 ^ 48) with 281474976710656 in *.

Lemma sval_range s : seed_ok s -> 0 <= sval s < 2 ^ 47.
Proof. destruct s as [a b c d]. unfold seed_ok, sval. cbn [e0 e1 e2 e3]. pow2. lia. Qed.

Lemma sval_inj s t : seed_ok s -> seed_ok t -> sval s = sval t -> s = t.
Proof.
  destruct s as [a b c d], t as [a' b' c' d']. unfold seed_ok, sval. cbn [e0 e1 e2 e3]. pow2.
  intros. assert (a = a') by lia. assert (b = b') by lia. assert (c = c') by lia. assert (d = d') by lia.
  subst. reflexivity.
Qed.

Lemma seed_of_ok z : seed_ok (seed_of z).
Proof. unfold seed_ok, seed_of. cbn [e0 e1 e2 e3]. pow2. lia. Qed.
Lemma seed_of_val z : 0 <= z < 2 ^ 47 -> sval (seed_of z) = z.
Proof. unfold sval, seed_of. cbn [e0 e1 e2 e3]. pow2. lia. Qed.
Lemma seed_of_sval s : seed_ok s -> seed_of (sval s) = s.
Proof.
  intros H. apply sval_inj; [apply seed_of_ok|exact H|]. apply seed_of_val, sval_range, H.
Qed.

Lemma smul_val a b : seed_ok a -> seed_ok b ->
  seed_ok (smul a b) /\ sval (smul a b) = (sval a * sval b) mod 2 ^ 47.
Proof.
  intros Ha Hb. unfold smul. rewrite !land4095, !land2047, !shiftr12.
  destruct a as [a0 a1 a2 a3], b as [b0 b1 b2 b3]. unfold seed_ok, sval in *.
  cbn [e0 e1 e2 e3] in *. pow2. split; [lia|].
  set (i0 := a0 * b0). set (i1 := a1 * b0 + a0 * b1 + i0 / 4096).
  set (i2 := a2 * b0 + a1 * b1 + a0 * b2 + i1 / 4096).
  set (i3 := a3 * b0 + a2 * b1 + a1 * b2 + a0 * b3 + i2 / 4096).
  apply Z.mod_unique_pos with
    (q := i3 / 2048 + 2 * (a1 * b3 + a2 * b2 + a3 * b1)
          + 8192 * (a2 * b3 + a3 * b2) + 33554432 * (a3 * b3)).
  - lia.
  - assert (E0 : i0 = 4096 * (i0 / 4096) + i0 mod 4096) by lia.
    assert (E1 : i1 = 4096 * (i1 / 4096) + i1 mod 4096) by lia.
    assert (E2 : i2 = 4096 * (i2 / 4096) + i2 mod 4096) by lia.
    assert (E3 : i3 = 2048 * (i3 / 2048) + i3 mod 2048) by lia.
    set (r0 := i0 mod 4096) in *. set (r1 := i1 mod 4096) in *. set (r2 := i2 mod 4096) in *.
    set (r3 := i3 mod 2048) in *. set (q3 := i3 / 2048) in *. set (q2 := i2 / 4096) in *.
    set (q1 := i1 / 4096) in *. set (q0 := i0 / 4096) in *.
    assert (F3 : a3 * b0 + a2 * b1 + a1 * b2 + a0 * b3 + q2 = 2048 * q3 + r3) by (rewrite <- E3; reflexivity).
    assert (F2 : a2 * b0 + a1 * b1 + a0 * b2 + q1 = 4096 * q2 + r2) by (rewrite <- E2; reflexivity).
    assert (F1 : a1 * b0 + a0 * b1 + q0 = 4096 * q1 + r1) by (rewrite <- E1; reflexivity).
    assert (F0 : a0 * b0 = 4096 * q0 + r0) by (rewrite <- E0; reflexivity).
    clearbody q0 q1 q2 q3 r0 r1 r2 r3. clear - F0 F1 F2 F3. lia.
Qed.

Lemma fits_true x : -2147483648 <= x <= 2147483647 -> fits x = true.
Proof. unfold fits, int_min, int_max. lia. Qed.
Lemma imul_ok x y : -2147483648 <= x * y <= 2147483647 -> imul x y = Val (x * y).
Proof. intros H. unfold imul. rewrite fits_true by exact H. reflexivity. Qed.
Lemma iadd_ok x y : -2147483648 <= x + y <= 2147483647 -> iadd x y = Val (x + y).
Proof. intros H. unfold iadd. rewrite fits_true by exact H. reflexivity. Qed.

Lemma limb_mul x y : 0 <= x < 4096 -> 0 <= y < 4096 -> 0 <= x * y <= 16769025.
Proof. nia. Qed.

Lemma seed_mul_smul a b : seed_ok a -> seed_ok b -> seed_mul a b = Val (smul a b).
Proof.
  intros Ha Hb. unfold seed_mul, smul.
  destruct a as [a0 a1 a2 a3], b as [b0 b1 b2 b3]. unfold seed_ok in *. cbn [e0 e1 e2 e3] in *. pow2.
  destruct Ha as (A0 & A1 & A2 & A3), Hb as (B0 & B1 & B2 & B3).
  assert (A3' : 0 <= a3 < 4096) by lia. assert (B3' : 0 <= b3 < 4096) by lia.
  pose proof (limb_mul _ _ A3' B0). pose proof (limb_mul _ _ A2 B1). pose proof (limb_mul _ _ A1 B2).
  pose proof (limb_mul _ _ A0 B3'). pose proof (limb_mul _ _ A2 B0). pose proof (limb_mul _ _ A1 B1).
  pose proof (limb_mul _ _ A0 B2). pose proof (limb_mul _ _ A1 B0). pose proof (limb_mul _ _ A0 B1).
  pose proof (limb_mul _ _ A0 B0).
  unfold imul.
  set (p30 := a3 * b0) in *. set (p21 := a2 * b1) in *. set (p12 := a1 * b2) in *. set (p03 := a0 * b3) in *.
  set (p20 := a2 * b0) in *. set (p11 := a1 * b1) in *. set (p02 := a0 * b2) in *.
  set (p10 := a1 * b0) in *. set (p01 := a0 * b1) in *. set (p00 := a0 * b0) in *.
  clearbody p30 p21 p12 p03 p20 p11 p02 p10 p01 p00. clear A0 A1 A2 A3 B0 B1 B2 B3 A3' B3'.
  assert (SB : forall x, 0 <= x -> 0 <= Z.shiftr x 12 <= x).
  { clear. intros x Hx. rewrite shiftr12. lia. }
  pose proof (SB p00 ltac:(lia)) as S0. set (h0 := Z.shiftr p00 12) in *.
  pose proof (SB (p10 + p01 + h0) ltac:(lia)) as S1.
  set (h1 := Z.shiftr (p10 + p01 + h0) 12) in *. 
  pose proof (SB (p20 + p11 + p02 + h1) ltac:(lia)) as S2.
  set (h2 := Z.shiftr (p20 + p11 + p02 + h1) 12) in *.
  clear SB.
  repeat (match goal with
          | |- bind (if fits ?x then _ else _) _ = _ => rewrite (fits_true x) by lia; cbn [bind]
          | |- bind (iadd ?x ?y) _ = _ => rewrite (iadd_ok x y) by lia; cbn [bind]; fold h0; fold h1; fold h2
          end).
  reflexivity.
Qed.

Lemma seed_mul_val a b : seed_ok a -> seed_ok b ->
  exists c, seed_mul a b = Val c /\ seed_ok c /\ sval c = (sval a * sval b) mod 2 ^ 47.
Proof.
  intros Ha Hb. exists (smul a b). split; [apply seed_mul_smul; assumption|].
  apply smul_val; assumption.
Qed.

Lemma lor_add x n c : 0 <= n -> 0 <= c < 2 ^ n -> Z.lor (Z.shiftl x n) c = x * 2 ^ n + c.
Proof.
  intros Hn Hc.
  assert (L : Z.land (Z.shiftl x n) c = 0).
  { apply Z.bits_inj'. intros m Hm. rewrite Z.land_spec, Z.bits_0.
    destruct (Z.lt_ge_cases m n) as [H|H].
    - rewrite Z.shiftl_spec_low by exact H. reflexivity.
    - rewrite <- (Z.mod_small c (2 ^ n)) by exact Hc. rewrite Z.mod_pow2_bits_high by lia.
      apply andb_false_r. }
  rewrite <- Z.lxor_lor by exact L. rewrite <- Z.add_nocarry_lxor by exact L.
  rewrite Z.shiftl_mul_pow2 by exact Hn. reflexivity.
Qed.

Lemma seed_shl_val s n : seed_ok s -> 0 <= n <= 12 ->
  seed_ok (seed_shl s n) /\ sval (seed_shl s n) = (sval s * 2 ^ n) mod 2 ^ 47.
Proof.
  intros Hs Hn. unfold seed_shl.
  assert (HP : 0 < 2 ^ n <= 4096).
  { split; [apply Z.pow_pos_nonneg; lia|]. change 4096 with (2 ^ 12). apply Z.pow_le_mono_r; lia. }
  destruct s as [a b c d]. unfold seed_ok, sval in *. cbn [e0 e1 e2 e3] in *.
  change (2 ^ 12) with 4096 in *; change (2 ^ 11) with 2048 in *;
  change (2 ^ 24) with 16777216 in *; change (2 ^ 36) with 68719476736 in *;
  change (2 ^ 47) with 140737488355328 in *.
  rewrite (Z.shiftl_mul_pow2 a) by lia.
  assert (C1 : 0 <= Z.land (Z.shiftr (a * 2 ^ n) 12) 4095 < 2 ^ n /\
               Z.land (Z.shiftr (a * 2 ^ n) 12) 4095 = a * 2 ^ n / 4096).
  { rewrite land4095, shiftr12. set (P := 2 ^ n) in *. clearbody P.
    assert (0 <= a * P / 4096 < P).
    { split; [apply Z.div_pos; nia|]. apply Z.div_lt_upper_bound; nia. }
    rewrite Z.mod_small by lia. split; [assumption|reflexivity]. }
  rewrite (lor_add b) by (try lia; apply C1). rewrite (proj2 C1). clear C1.
  set (i1 := b * 2 ^ n + a * 2 ^ n / 4096).
  assert (C2 : 0 <= Z.land (Z.shiftr i1 12) 4095 < 2 ^ n /\
               Z.land (Z.shiftr i1 12) 4095 = i1 / 4096).
  { rewrite land4095, shiftr12. unfold i1. set (P := 2 ^ n) in *. clearbody P. clear i1.
    assert (0 <= a * P / 4096 < P).
    { split; [apply Z.div_pos; nia|]. apply Z.div_lt_upper_bound; nia. }
    set (q := a * P / 4096) in *. clearbody q.
    assert (0 <= (b * P + q) / 4096 < P).
    { split; [apply Z.div_pos; nia|]. apply Z.div_lt_upper_bound; nia. }
    rewrite Z.mod_small by lia. split; [assumption|reflexivity]. }
  assert (B1 : 0 <= i1 / 4096 < 2 ^ n) by (rewrite <- (proj2 C2); apply C2).
  rewrite (lor_add c) by (try lia; apply C2). rewrite (proj2 C2). clear C2.
  set (i2 := c * 2 ^ n + i1 / 4096).
  assert (C3 : 0 <= Z.land (Z.shiftr i2 12) 4095 < 2 ^ n /\
               Z.land (Z.shiftr i2 12) 4095 = i2 / 4096).
  { rewrite land4095, shiftr12. unfold i2. set (P := 2 ^ n) in *. clearbody P. clear i2.
    set (q := i1 / 4096) in *. clearbody q. clear i1.
    assert (0 <= (c * P + q) / 4096 < P).
    { split; [apply Z.div_pos; nia|]. apply Z.div_lt_upper_bound; nia. }
    rewrite Z.mod_small by lia. split; [assumption|reflexivity]. }
  rewrite (lor_add d) by (try lia; apply C3). rewrite (proj2 C3). clear C3.
  rewrite !land4095, land2047. set (P := 2 ^ n) in *. clearbody P.
  set (i0 := a * P). fold i0 in i1. set (i3 := d * P + i2 / 4096).
  split; [clearbody i0 i1 i2 i3; clear; lia|].
  apply Z.mod_unique_pos with (q := i3 / 2048); [clearbody i0 i1 i2 i3; clear; lia|].
  assert (E1 : i1 = b * P + i0 / 4096) by reflexivity.
  assert (E2 : i2 = c * P + i1 / 4096) by reflexivity.
  assert (E3 : i3 = d * P + i2 / 4096) by reflexivity.
  assert (E0 : i0 = a * P) by reflexivity.
  clearbody i0 i1 i2 i3. clear - E0 E1 E2 E3.
  replace ((a + 4096 * b + 16777216 * c + 68719476736 * d) * P)
    with (i0 + 4096 * (i1 - i0 / 4096) + 16777216 * (i2 - i1 / 4096) + 68719476736 * (i3 - i2 / 4096))
    by (rewrite E0 at 1; rewrite E1 at 1; rewrite E2 at 1; rewrite E3 at 1; ring).
  clear. lia.
Qed.

(** Bitwise or of seeds is bitwise or of the numbers. *)
Lemma lor_cat k a b x y : 0 <= k -> 0 <= a < 2 ^ k -> 0 <= b < 2 ^ k ->
  Z.lor (a + 2 ^ k * x) (b + 2 ^ k * y) = Z.lor a b + 2 ^ k * Z.lor x y.
Proof.
  intros Hk Ha Hb.
  assert (Lab : 0 <= Z.lor a b < 2 ^ k).
  { split; [apply Z.lor_nonneg; lia|].
    destruct (Z.eq_dec (Z.lor a b) 0) as [E|E]; [rewrite E; apply Z.pow_pos_nonneg; lia|].
    apply Z.log2_lt_pow2; [pose proof (proj2 (Z.lor_nonneg a b) ltac:(lia)); lia|].
    rewrite Z.log2_lor by lia.
    destruct (Z.eq_dec a 0) as [->|Ea]; destruct (Z.eq_dec b 0) as [->|Eb].
    - contradiction E; reflexivity.
    - rewrite Z.max_r by (change (Z.log2 0) with 0; apply Z.log2_nonneg). apply Z.log2_lt_pow2; lia.
    - rewrite Z.max_l by (change (Z.log2 0) with 0; apply Z.log2_nonneg). apply Z.log2_lt_pow2; lia.
    - apply Z.max_lub_lt; apply Z.log2_lt_pow2; lia. }
  rewrite (Z.add_comm a), (Z.add_comm b), (Z.add_comm (Z.lor a b)), !(Z.mul_comm (2 ^ k)).
  rewrite <- !lor_add by assumption.
  rewrite Z.shiftl_lor. rewrite <- !Z.lor_assoc. f_equal. rewrite !Z.lor_assoc. f_equal. apply Z.lor_comm.
Qed.

Lemma lor_small k a b : 0 <= k -> 0 <= a < 2 ^ k -> 0 <= b < 2 ^ k -> 0 <= Z.lor a b < 2 ^ k.
Proof.
  intros Hk Ha Hb. pose proof (lor_cat k a b 0 0 Hk Ha Hb) as E.
  split; [apply Z.lor_nonneg; lia|].
  destruct (Z.eq_dec (Z.lor a b) 0) as [Z0|Z0]; [rewrite Z0; apply Z.pow_pos_nonneg; lia|].
  apply Z.log2_lt_pow2; [pose proof (proj2 (Z.lor_nonneg a b) ltac:(lia)); lia|].
  rewrite Z.log2_lor by lia.
  assert (0 < k).
  { destruct (Z.eq_dec k 0) as [->|]; [|lia]. change (2 ^ 0) with 1 in *.
    replace a with 0 in Z0 by lia. replace b with 0 in Z0 by lia. contradiction Z0; reflexivity. }
  apply Z.max_lub_lt.
  - destruct (Z.eq_dec a 0) as [->|]; [exact H|]. apply Z.log2_lt_pow2; lia.
  - destruct (Z.eq_dec b 0) as [->|]; [exact H|]. apply Z.log2_lt_pow2; lia.
Qed.

Lemma seed_or_val a b : seed_ok a -> seed_ok b ->
  seed_ok (seed_or a b) /\ sval (seed_or a b) = Z.lor (sval a) (sval b).
Proof.
  intros Ha Hb. destruct a as [a0 a1 a2 a3], b as [b0 b1 b2 b3]. unfold seed_ok, seed_or, sval in *.
  cbn [e0 e1 e2 e3] in *. destruct Ha as (A0 & A1 & A2 & A3), Hb as (B0 & B1 & B2 & B3).
  split.
  - pose proof (lor_small 12 a0 b0 ltac:(lia) A0 B0). pose proof (lor_small 12 a1 b1 ltac:(lia) A1 B1).
    pose proof (lor_small 12 a2 b2 ltac:(lia) A2 B2). pose proof (lor_small 11 a3 b3 ltac:(lia) A3 B3).
    repeat split; apply H || apply H0 || apply H1 || apply H2.
  - replace (a0 + 2 ^ 12 * a1 + 2 ^ 24 * a2 + 2 ^ 36 * a3)
      with (a0 + 2 ^ 12 * (a1 + 2 ^ 12 * (a2 + 2 ^ 12 * a3))) by (pow2; lia).
    replace (b0 + 2 ^ 12 * b1 + 2 ^ 24 * b2 + 2 ^ 36 * b3)
      with (b0 + 2 ^ 12 * (b1 + 2 ^ 12 * (b2 + 2 ^ 12 * b3))) by (pow2; lia).
    rewrite !lor_cat by (try assumption; lia). pow2. lia.
Qed.

Lemma seed_of_int_val n : -2147483648 <= n <= 2147483647 ->
  seed_ok (seed_of_int n) /\ sval (seed_of_int n) = n mod 2 ^ 36.
Proof.
  intros Hn. unfold seed_of_int. rewrite !land4095, shiftr12, shiftr24.
  unfold seed_ok, sval. cbn [e0 e1 e2 e3]. pow2. lia.
Qed.

Lemma seed_eq_val a b : seed_ok a -> seed_ok b ->
  (seed_eq a b = true <-> sval a = sval b) /\ (seed_ne a b = true <-> sval a <> sval b).
Proof.
  intros Ha Hb. assert (H : seed_eq a b = true <-> sval a = sval b).
  { split.
    - destruct a as [a0 a1 a2 a3], b as [b0 b1 b2 b3]. unfold seed_eq. cbn [e0 e1 e2 e3]. intros E.
      apply andb_true_iff in E as [E E3]. apply andb_true_iff in E as [E E2].
      apply andb_true_iff in E as [E0 E1]. apply Z.eqb_eq in E0, E1, E2, E3. subst. reflexivity.
    - intros E. rewrite (sval_inj a b Ha Hb E). unfold seed_eq. rewrite !Z.eqb_refl. reflexivity. }
  split; [exact H|].
  assert (E : seed_ne a b = negb (seed_eq a b)).
  { unfold seed_ne, seed_eq. rewrite !negb_andb. reflexivity. }
  rewrite E, negb_true_iff. destruct (seed_eq a b); intuition congruence.
Qed.

(** ** Powers *)
Lemma smul_ok a b : seed_ok a -> seed_ok b -> seed_ok (smul a b).
Proof. intros. apply smul_val; assumption. Qed.

Lemma pow_loop_val nb : forall lex tmp laa, 0 <= lex < 2 ^ Z.of_nat nb -> seed_ok tmp -> seed_ok laa ->
  seed_ok (pow_loop nb lex tmp laa) /\
  sval (pow_loop nb lex tmp laa) = (sval tmp * sval laa ^ lex) mod 2 ^ 47.
Proof.
  induction nb as [|nb IH]; intros lex tmp laa Hl Ht Ha.
  - change (2 ^ Z.of_nat 0) with 1 in Hl. replace lex with 0 by lia. cbn [pow_loop].
    split; [exact Ht|]. rewrite Z.pow_0_r, Z.mul_1_r. symmetry. apply Z.mod_small, sval_range, Ht.
  - cbn [pow_loop].
    assert (HL : Z.land lex 1 = lex mod 2).
    { change 1 with (Z.ones 1). rewrite Z.land_ones by lia. reflexivity. }
    assert (HS : Z.shiftr lex 1 = lex / 2) by (rewrite Z.shiftr_div_pow2 by lia; reflexivity).
    rewrite HL, HS.
    rewrite Nat2Z.inj_succ, Z.pow_succ_r in Hl by lia.
    assert (Hl2 : 0 <= lex / 2 < 2 ^ Z.of_nat nb).
    { generalize dependent (2 ^ Z.of_nat nb). intros P HP. lia. }
    destruct (smul_val tmp laa Ht Ha) as [O1 V1]. destruct (smul_val laa laa Ha Ha) as [O2 V2].
    destruct (0 <? lex mod 2) eqn:E.
    + destruct (IH (lex / 2) (smul tmp laa) (smul laa laa) Hl2 O1 O2) as [O3 V3].
      split; [exact O3|]. rewrite V3, V1, V2.
      assert (El : lex = 1 + 2 * (lex / 2)) by lia.
      rewrite El at 2. rewrite Z.pow_add_r, Z.pow_1_r, Z.pow_mul_r by lia.
      rewrite Z.pow_2_r. rewrite <- Z.mul_mod_idemp_r by lia.
      rewrite <- Zpower_mod by lia.
      rewrite Z.mul_mod_idemp_r, Z.mul_mod_idemp_l by lia. f_equal. ring.
    + destruct (IH (lex / 2) tmp (smul laa laa) Hl2 Ht O2) as [O3 V3].
      split; [exact O3|]. rewrite V3, V2.
      assert (El : lex = 2 * (lex / 2)) by lia.
      rewrite El at 2. rewrite Z.pow_mul_r by lia.
      rewrite Z.pow_2_r. rewrite <- Z.mul_mod_idemp_r by lia.
      rewrite <- Zpower_mod by lia.
      rewrite Z.mul_mod_idemp_r by lia. reflexivity.
Qed.

Lemma lexoc_fold L c : forall m v, (m <= length L)%nat -> length c = length L ->
  v = Z.of_nat (lexnum (skipn m L) (skipn m c)) ->
  fold_left (fun acc m => acc * Z.of_nat (get L m) + Z.of_nat (get c m)) (rev (seq 0 m)) v
  = Z.of_nat (lexnum L c).
Proof.
  induction m as [|m IH]; intros v Hm Hc Hv; [exact Hv|].
  rewrite seq_S. cbn [Nat.add]. rewrite rev_app_distr. cbn [rev app fold_left].
  apply IH; [lia|exact Hc|].
  assert (EL : skipn m L = get L m :: skipn (S m) L).
  { clear -Hm. revert L Hm. induction m as [|m IHm]; intros [|l L] Hm; cbn [length] in Hm; try lia; [reflexivity|].
    cbn [skipn]. rewrite IHm by lia. reflexivity. }
  assert (Ec : skipn m c = get c m :: skipn (S m) c).
  { assert (Hm' : (S m <= length c)%nat) by lia. clear -Hm'. revert c Hm'.
    induction m as [|m IHm]; intros [|l L] Hm; cbn [length] in Hm; try lia; [reflexivity|].
    cbn [skipn]. rewrite IHm by lia. reflexivity. }
  rewrite EL, Ec. cbn [lexnum]. rewrite Hv. rewrite Nat2Z.inj_add, Nat2Z.inj_mul. ring.
Qed.

Lemma skipn_last (l : list nat) : (0 < length l)%nat -> skipn (length l - 1) l = [get l (length l - 1)].
Proof.
  induction l as [|x [|y l] IH]; intros Hn; cbn [length] in *; [lia|reflexivity|].
  specialize (IH ltac:(lia)). replace (S (S (length l)) - 1)%nat with (S (S (length l) - 1)) by lia. exact IH.
Qed.

Lemma lexoc_lexnum L c : (0 < length L)%nat -> length c = length L ->
  lexoc L c = Z.of_nat (lexnum L c + 1).
Proof.
  intros Hn Hc. unfold lexoc.
  assert (E : Z.of_nat (get c (length L - 1)) =
              Z.of_nat (lexnum (skipn (length L - 1) L) (skipn (length L - 1) c))).
  { f_equal. rewrite skipn_last by exact Hn. rewrite <- Hc, skipn_last by lia. cbn [lexnum]. lia. }
  rewrite (lexoc_fold L c (length L - 1)%nat _ ltac:(lia) Hc E). lia.
Qed.

Lemma lexnum_lt L c : in_lattice L c -> (lexnum L c < volume L)%nat.
Proof.
  intros H. induction H as [|x l c L Hx H IH]; cbn [lexnum volume]; [lia|]. nia.
Qed.

Lemma lexnum_inj L : forall c c', in_lattice L c -> in_lattice L c' -> lexnum L c = lexnum L c' -> c = c'.
Proof.
  induction L as [|l L IH]; intros [|x c] [|x' c'] H H' E; try (inversion H; fail); try (inversion H'; fail);
    [reflexivity|].
  assert (Hx : (x < l)%nat) by (inversion H; assumption).
  assert (Hx' : (x' < l)%nat) by (inversion H'; assumption).
  assert (Hc : in_lattice L c) by (inversion H; assumption).
  assert (Hc' : in_lattice L c') by (inversion H'; assumption).
  cbn [lexnum] in E.
  assert (E' : lexnum L c = lexnum L c').
  { set (n := lexnum L c) in *. set (n' := lexnum L c') in *. clearbody n n'.
    destruct (Nat.lt_trichotomy n n') as [K|[K|K]]; [|exact K|].
    - pose proof (Nat.mul_le_mono_l (n + 1) n' l ltac:(lia)). lia.
    - pose proof (Nat.mul_le_mono_l (n' + 1) n l ltac:(lia)). lia. }
  assert (x = x') as -> by (rewrite E' in E; lia).
  f_equal. apply IH; assumption.
Qed.

Lemma numbits_loop_small fuel : forall num x, 1 <= x < 2 ^ 30 -> 1 <= num <= 30 -> (num + Z.of_nat fuel > 31) ->
  2 ^ (num - 1) <= x ->
  exists nb, numbits_loop fuel (2 ^ num) num x = Val nb /\ 1 <= nb /\ 2 ^ (nb - 1) <= x < 2 ^ nb.
Proof.
  induction fuel as [|fuel IH]; intros num x Hx Hn Hf Hp; [lia|].
  cbn [numbits_loop]. destruct (2 ^ num <=? x) eqn:E.
  - assert (num <= 29).
    { destruct (Z.eq_dec num 30) as [->|]; lia. }
    assert (2 ^ num <= 2 ^ 29) by (apply Z.pow_le_mono_r; lia).
    assert (0 < 2 ^ num) by (apply Z.pow_pos_nonneg; lia).
    change (2 ^ 29) with 536870912 in *.
    rewrite imul_ok by lia. cbn [bind].
    replace (2 ^ num * 2) with (2 ^ (num + 1)) by (rewrite Z.pow_add_r, Z.pow_1_r by lia; reflexivity).
    apply IH; [exact Hx|lia|lia|]. replace (num + 1 - 1) with num by lia. lia.
  - exists num. repeat split; try lia.
Qed.

Lemma numbits_small x : 1 <= x < 2 ^ 30 ->
  exists nb, numbits x = Val nb /\ 1 <= nb /\ 2 ^ (nb - 1) <= x < 2 ^ nb.
Proof. intros H. apply (numbits_loop_small 33 1); lia. Qed.

Lemma numbits_loop_big fuel : forall num x, 2 ^ 30 <= x -> 1 <= num <= 30 ->
  numbits_loop fuel (2 ^ num) num x = Undef.
Proof.
  induction fuel as [|fuel IH]; intros num x Hx Hn; [reflexivity|].
  cbn [numbits_loop].
  assert (2 ^ num <= 2 ^ 30) by (apply Z.pow_le_mono_r; lia).
  rewrite (proj2 (Z.leb_le _ _)) by lia.
  destruct (Z.eq_dec num 30) as [->|]; [reflexivity|].
  assert (2 ^ num <= 2 ^ 29) by (apply Z.pow_le_mono_r; lia).
  assert (0 < 2 ^ num) by (apply Z.pow_pos_nonneg; lia).
  change (2 ^ 29) with 536870912 in *.
  rewrite imul_ok by lia. cbn [bind].
  replace (2 ^ num * 2) with (2 ^ (num + 1)) by (rewrite Z.pow_add_r, Z.pow_1_r by lia; reflexivity).
  apply IH; lia.
Qed.

Lemma numbits_big x : 2 ^ 30 <= x -> numbits x = Undef.
Proof. intros H. apply (numbits_loop_big 33 1); lia. Qed.

Lemma ran_mult_val : seed_ok ran_mult /\ sval ran_mult = multiplier.
Proof. vm_compute. repeat split; congruence. Qed.

Lemma one_val : seed_ok (seed_of_int 1) /\ sval (seed_of_int 1) = 1.
Proof. vm_compute. repeat split; congruence. Qed.

Lemma nth_map_seq0 {A} (f : nat -> A) n i d : (i < n)%nat -> nth i (map f (seq 0 n)) d = f i.
Proof.
  intros H. rewrite nth_indep with (d' := f 0%nat) by (rewrite map_length, seq_length; exact H).
  rewrite map_nth, seq_nth by exact H. reflexivity.
Qed.

Definition powA (n : nat) : Z := multiplier ^ Z.of_nat n mod 2 ^ 47.

Lemma initRNG_ok lay q : layout_ok lay -> Z.of_nat (volume (l_size lay)) < 2 ^ 30 -> (q < l_nodes lay)%nat ->
  exists g, initRNG lay q = Val g /\
    seed_ok (r_mult g) /\ sval (r_mult g) = multiplier /\
    seed_ok (r_mult_n g) /\ sval (r_mult_n g) = powA (volume (l_size lay) + 1) /\
    length (r_latt g) = l_sites lay /\
    forall i, (i < l_sites lay)%nat ->
      seed_ok (nth i (r_latt g) (mkSeed 0 0 0 0)) /\
      sval (nth i (r_latt g) (mkSeed 0 0 0 0)) = powA (lexnum (l_size lay) (l_coord lay q i) + 1).
Proof.
  intros (Hn & Hpos & Hb1 & Hb2) Hv Hq.
  pose proof (volume_pos _ Hpos) as Hvp. unfold initRNG. rewrite vol_volume.
  destruct (numbits_small (Z.of_nat (volume (l_size lay))) ltac:(lia)) as (nb & E & Hnb & Hlo & Hhi).
  rewrite E. cbn [bind]. eexists. split; [reflexivity|]. cbn [r_mult r_mult_n r_latt].
  destruct ran_mult_val as [RO RV]. destruct one_val as [O1 V1].
  rewrite <- (Z2Nat.id nb) in Hhi by lia.
  split; [exact RO|]. split; [exact RV|].
  destruct (pow_loop_val (Z.to_nat nb) (Z.of_nat (volume (l_size lay))) ran_mult ran_mult ltac:(lia) RO RO) as [PO PV].
  split; [exact PO|]. split.
  { rewrite PV, RV. unfold powA. f_equal. rewrite Nat2Z.inj_add, Z.add_comm, Z.pow_add_r by lia.
    change (Z.of_nat 1) with 1. rewrite Z.pow_1_r. reflexivity. }
  split; [rewrite map_length, seq_length; reflexivity|].
  intros i Hi.
  rewrite !nth_map_seq0 by exact Hi.
  destruct (Hb2 (q, i) (conj Hq Hi)) as [Hin _]. cbn [fst snd] in Hin.
  pose proof (in_lattice_length _ _ Hin) as Hlen. pose proof (lexnum_lt _ _ Hin) as Hlt.
  rewrite lexoc_lexnum by assumption.
  destruct (pow_loop_val (Z.to_nat nb) (Z.of_nat (lexnum (l_size lay) (l_coord lay q i) + 1)) (seed_of_int 1) ran_mult
              ltac:(lia) O1 RO) as [QO QV].
  split; [exact QO|]. rewrite QV, V1, RV. unfold powA. f_equal. lia.
Qed.

Lemma initRNG_big lay q : 2 ^ 30 <= Z.of_nat (volume (l_size lay)) -> initRNG lay q = Undef.
Proof. intros H. unfold initRNG. rewrite vol_volume, numbits_big by exact H. reflexivity. Qed.

From Coq Require Import List Arith ZArith Bool Lia Znumtheory.
From Coq Require Import ZifyBool ZifyNat Zpow_facts.
From Verif Require Import Base EvalModel RngModel RngSpec RngProofs RngDraw RngOrder.
Import ListNotations.
Local Open Scope Z_scope.
Ltac Zify.zify_post_hook ::= Z.div_mod_to_equations.

Lemma rne_exact p n : 0 < p -> 0 <= n < 2 ^ p -> rne p n = n.
Proof.
  intros Hp Hn. unfold rne. assert (Z.log2 n + 1 - p <= 0).
  { destruct (Z.eq_dec n 0) as [->|]; [change (Z.log2 0) with 0; lia|].
    assert (Z.log2 n < p) by (apply Z.log2_lt_pow2; lia). lia. }
  rewrite (proj2 (Z.leb_le _ _)) by assumption. reflexivity.
Qed.

Lemma rne_nonneg p n : 0 <= n -> 0 <= rne p n.
Proof.
  intros Hn. unfold rne. cbv zeta. set (k := Z.log2 n + 1 - p). destruct (k <=? 0) eqn:E; [exact Hn|].
  assert (0 < 2 ^ k) by (apply Z.pow_pos_nonneg; lia).
  assert (0 <= n / 2 ^ k) by (apply Z.div_pos; lia).
  destruct (_ || _); nia.
Qed.

Lemma rne_upper p n m : 0 < p <= m -> 0 <= n < 2 ^ m -> rne p n <= 2 ^ m.
Proof.
  intros Hp Hn. unfold rne. cbv zeta. set (k := Z.log2 n + 1 - p). destruct (k <=? 0) eqn:E; [lia|].
  assert (Hn0 : 0 < n).
  { destruct (Z.eq_dec n 0) as [->|]; [|lia]. unfold k in E. change (Z.log2 0) with 0 in E. lia. }
  assert (Hl : Z.log2 n < m) by (apply Z.log2_lt_pow2; lia).
  assert (0 < 2 ^ k) by (apply Z.pow_pos_nonneg; lia).
  assert (Hk : 2 ^ (Z.log2 n + 1) = 2 ^ k * 2 ^ p).
  { rewrite <- Z.pow_add_r by lia. f_equal. unfold k. lia. }
  pose proof (proj2 (Z.log2_spec n Hn0)) as Hs. rewrite <- Z.add_1_r in Hs. rewrite Hk in Hs.
  assert (Q : n / 2 ^ k < 2 ^ p) by (apply Z.div_lt_upper_bound; lia).
  assert (Hm : 2 ^ k * 2 ^ p <= 2 ^ m) by (rewrite <- Hk; apply Z.pow_le_mono_r; lia).
  destruct (_ || _); nia.
Qed.

Lemma rne_at p n e : 0 < p -> 0 <= e -> 2 ^ e <= n < 2 ^ (e + 1) -> 0 < e + 1 - p ->
  rne p n =
    (if (n mod 2 ^ (e + 1 - p) <? 2 ^ (e - p)) || ((n mod 2 ^ (e + 1 - p) =? 2 ^ (e - p)) && Z.even (n / 2 ^ (e + 1 - p)))
     then n / 2 ^ (e + 1 - p) else n / 2 ^ (e + 1 - p) + 1) * 2 ^ (e + 1 - p).
Proof.
  intros Hp He Hn Hk. unfold rne. assert (L : Z.log2 n = e) by (apply Z.log2_unique; [exact He|]; unfold Z.succ; exact Hn).
  rewrite L. cbv zeta. rewrite (proj2 (Z.leb_gt _ _)) by exact Hk.
  replace (e + 1 - p - 1) with (e - p) by lia. reflexivity.
Qed.

Lemma seedToFloat53 s : seed_ok s -> seedToFloat 53 s = sval s.
Proof.
  intros H. destruct s as [a b c d]. unfold seed_ok, seedToFloat, sval in *. cbn [e0 e1 e2 e3] in *.
  assert (P : 2 ^ 53 = 9007199254740992) by reflexivity. pow2.
  rewrite (rne_exact 53 a) by (rewrite ?P; lia).
  rewrite (rne_exact 53 (b * 4096 + a)) by (rewrite ?P; lia).
  rewrite (rne_exact 53 (c * 16777216 + (b * 4096 + a))) by (rewrite ?P; lia).
  rewrite rne_exact by (rewrite ?P; lia). lia.
Qed.

(** Rounding a 47-bit number to 24 bits reaches 2^47 exactly in the last half unit. *)
Lemma rne24_top n : 0 <= n <= 2 ^ 47 ->
  0 <= rne 24 n <= 2 ^ 47 /\ (rne 24 n = 2 ^ 47 <-> 2 ^ 47 - 2 ^ 22 <= n).
Proof.
  intros Hn. destruct (Z.eq_dec n (2 ^ 47)) as [->|Hne].
  { assert (E : rne 24 (2 ^ 47) = 2 ^ 47) by reflexivity. rewrite E. lia. }
  pose proof (rne_nonneg 24 n ltac:(lia)) as H0. pose proof (rne_upper 24 n 47 ltac:(lia) ltac:(lia)) as H1.
  split; [lia|].
  destruct (Z.lt_ge_cases n (2 ^ 46)) as [H|H].
  - pose proof (rne_upper 24 n 46 ltac:(lia) ltac:(lia)) as H2.
    change (2 ^ 46) with 70368744177664 in *. change (2 ^ 47) with 140737488355328 in *. change (2 ^ 22) with 4194304. lia.
  - rewrite (rne_at 24 n 46) by lia.
    change (46 + 1 - 24) with 23. change (46 - 24) with 22.
    change (2 ^ 23) with 8388608. change (2 ^ 22) with 4194304. change (2 ^ 47) with 140737488355328 in *.
    change (2 ^ 46) with 70368744177664 in *.
    clear H0 H1.
    assert (Ev : Z.even (n / 8388608) = true <-> exists h, n / 8388608 = 2 * h).
    { rewrite Z.even_spec. reflexivity. }
    set (r := n mod 8388608) in *. set (q := n / 8388608) in *.
    assert (D : n = 8388608 * q + r /\ 0 <= r < 8388608) by (subst q r; lia).
    clearbody q r. destruct D as [-> Hr].
    destruct (r <? 4194304) eqn:E1; cbn [orb]; [split; intros; exfalso; lia|].
    destruct (r =? 4194304) eqn:E2; cbn [andb].
    + destruct (Z.even q) eqn:E3.
      * destruct (proj1 Ev eq_refl) as [h Hh]. split; intros; exfalso; lia.
      * split; intros; lia.
    + split; intros; lia.
Qed.

Lemma rne24_36 n : 0 <= n < 2 ^ 36 ->
  0 <= rne 24 n <= 2 ^ 36 /\ (2 ^ 36 - 2 ^ 22 <= rne 24 n <-> 2 ^ 36 - 2 ^ 22 - 2 ^ 11 <= n).
Proof.
  intros Hn.
  pose proof (rne_nonneg 24 n ltac:(lia)) as H0. pose proof (rne_upper 24 n 36 ltac:(lia) ltac:(lia)) as H1.
  split; [lia|].
  destruct (Z.lt_ge_cases n (2 ^ 35)) as [H|H].
  - pose proof (rne_upper 24 n 35 ltac:(lia) ltac:(lia)) as H2.
    change (2 ^ 35) with 34359738368 in *. change (2 ^ 36) with 68719476736 in *. change (2 ^ 22) with 4194304.
    change (2 ^ 11) with 2048. lia.
  - rewrite (rne_at 24 n 35) by lia.
    change (35 + 1 - 24) with 12. change (35 - 24) with 11.
    change (2 ^ 12) with 4096. change (2 ^ 22) with 4194304. change (2 ^ 36) with 68719476736 in *.
    change (2 ^ 35) with 34359738368 in *. change (2 ^ 11) with 2048.
    clear H0 H1.
    assert (Ev : Z.even (n / 4096) = true <-> exists h, n / 4096 = 2 * h).
    { rewrite Z.even_spec. reflexivity. }
    set (r := n mod 4096) in *. set (q := n / 4096) in *.
    assert (D : n = 4096 * q + r /\ 0 <= r < 4096) by (subst q r; lia).
    clearbody q r. destruct D as [-> Hr].
    destruct (r <? 2048) eqn:E1; cbn [orb]; [split; intros; lia|].
    destruct (r =? 2048) eqn:E2; cbn [andb].
    + destruct (Z.even q) eqn:E3.
      * destruct (proj1 Ev eq_refl) as [h Hh]. split; intros; lia.
      * split; intros; lia.
    + split; intros; lia.
Qed.

Lemma number64_range s : seed_ok s ->
  0 <= number64 s <= 2 ^ 47 /\ (number64 s = 2 ^ 47 <-> 2 ^ 47 - 2 ^ 22 <= sval s).
Proof.
  intros H. unfold number64. rewrite seedToFloat53 by exact H.
  apply rne24_top. pose proof (sval_range s H). lia.
Qed.

Lemma number32_range s : seed_ok s ->
  0 <= number32 s <= 2 ^ 47 /\ (number32 s = 2 ^ 47 <-> 2 ^ 47 - 2 ^ 22 - 2 ^ 11 <= sval s).
Proof.
  intros H. destruct s as [a b c d]. unfold seed_ok, number32, seedToFloat, sval in *. cbn [e0 e1 e2 e3] in *.
  rewrite (rne_exact 24 a) by (pow2; lia). rewrite (rne_exact 24 (b * 2 ^ 12 + a)) by (pow2; lia).
  assert (Hx : 0 <= c * 2 ^ 24 + (b * 2 ^ 12 + a) < 2 ^ 36) by (pow2; lia).
  destruct (rne24_36 _ Hx) as [B I].
  set (x := c * 2 ^ 24 + (b * 2 ^ 12 + a)) in *.
  assert (Ex : x = c * 2 ^ 24 + (b * 2 ^ 12 + a)) by reflexivity. clearbody x.
  set (y := rne 24 x) in *. clearbody y.
  assert (Hz : 0 <= d * 2 ^ 36 + y <= 2 ^ 47) by (pow2; lia).
  destruct (rne24_top _ Hz) as [B2 I2]. split; [exact B2|].
  rewrite I2. change (2 ^ 22) with 4194304 in *. pow2. clear I2 B2. split; intros K.
  - assert (d = 2047) by lia. subst d. assert (68719476736 - 4194304 <= y) by lia. apply I in H0. lia.
  - assert (d = 2047) by lia. subst d. assert (68719476736 - 4194304 <= y) by (apply I; lia). lia.
Qed.

Lemma rne_pos p n : 0 < p -> 0 < n -> 0 < rne p n.
Proof.
  intros Hp Hn. unfold rne. cbv zeta. set (k := Z.log2 n + 1 - p). destruct (k <=? 0) eqn:E; [exact Hn|].
  assert (0 < 2 ^ k) by (apply Z.pow_pos_nonneg; lia).
  assert (Q : 1 <= n / 2 ^ k).
  { apply Z.div_le_lower_bound; [lia|]. rewrite Z.mul_1_r. pose proof (proj1 (Z.log2_spec n Hn)).
    assert (2 ^ k <= 2 ^ Z.log2 n) by (apply Z.pow_le_mono_r; lia). lia. }
  destruct (_ || _); nia.
Qed.
Lemma rne_zero p : 0 < p -> rne p 0 = 0.
Proof. intros Hp. apply rne_exact; [exact Hp|]. split; [lia|]. apply Z.pow_pos_nonneg; lia. Qed.
Lemma seedToFloat_pos p s : 0 < p -> seed_ok s -> (0 < seedToFloat p s <-> 0 < sval s).
Proof.
  intros Hp (A & B & C & D). unfold seedToFloat, sval.
  assert (X : forall n, 0 <= n -> (0 < rne p n <-> 0 < n)).
  { intros n Hn. split; [|apply rne_pos; exact Hp]. destruct (Z.eq_dec n 0) as [->|]; [rewrite rne_zero by exact Hp; lia|lia]. }
  pose proof (X _ (proj1 A)) as X0. pose proof (rne_nonneg p _ (proj1 A)) as N0.
  set (y0 := rne p (e0 s)) in *. clearbody y0.
  assert (M1 : 0 <= e1 s * 2 ^ 12 + y0) by (pow2; lia). pose proof (X _ M1) as X1. pose proof (rne_nonneg p _ M1) as N1.
  set (y1 := rne p (e1 s * 2 ^ 12 + y0)) in *. clearbody y1.
  assert (M2 : 0 <= e2 s * 2 ^ 24 + y1) by (pow2; lia). pose proof (X _ M2) as X2. pose proof (rne_nonneg p _ M2) as N2.
  set (y2 := rne p (e2 s * 2 ^ 24 + y1)) in *. clearbody y2.
  assert (M3 : 0 <= e3 s * 2 ^ 36 + y2) by (pow2; lia). rewrite (X _ M3). clear X. pow2. lia.
Qed.
Lemma number32_pos s : seed_ok s -> (0 < number32 s <-> 0 < sval s).
Proof. intros H. now apply seedToFloat_pos. Qed.
Lemma number64_pos s : seed_ok s -> (0 < number64 s <-> 0 < sval s).
Proof.
  intros H. unfold number64. rewrite seedToFloat53 by exact H. pose proof (sval_range s H).
  split; [|apply rne_pos; lia]. destruct (Z.eq_dec (sval s) 0) as [->|]; [rewrite rne_zero by lia; lia|lia].
Qed.
Lemma stream_zero s n : stream s n = 0 <-> s mod 2 ^ 47 = 0.
Proof.
  unfold stream. split; intros H.
  - apply Z.mod_divide in H; [|lia]. apply Zdivide_mod. apply Gauss with (b := multiplier ^ Z.of_nat n); [now rewrite Z.mul_comm in H|].
    apply rel_prime_sym. apply rel_prime_Zpower; [lia|lia|]. unfold multiplier. apply Zgcd_1_rel_prime. vm_compute. reflexivity.
  - rewrite Z.mul_mod, H, Z.mul_0_l by lia. reflexivity.
Qed.

(** Every seed congruent to 3 modulo 4 is reached from the default seed 11. *)
Lemma pow_reaches t j : t mod 4 = 1 -> exists n : nat, (2 ^ (Z.of_nat j + 2) | multiplier ^ Z.of_nat n - t).
Proof.
  intros Ht. induction j as [|j [n [q Hq]]].
  - exists 0%nat. change (2 ^ (Z.of_nat 0 + 2)) with 4. rewrite Z.pow_0_r. exists (- (t / 4)). lia.
  - destruct (Z.odd q) eqn:Oq.
    + destruct (pow_two_adic j) as (u & Hu & P).
      exists (n + Z.to_nat (2 ^ Z.of_nat j))%nat.
      rewrite Nat2Z.inj_add, Z2Nat.id by (apply Z.pow_nonneg; lia).
      rewrite (Z.pow_add_r multiplier), P by (try apply Z.pow_nonneg; lia).
      assert (Ev : Z.even (q + multiplier ^ Z.of_nat n * u) = true).
      { rewrite <- Z.negb_odd, Z.odd_add, Z.odd_mul, Oq, odd_mult_pow, Hu. reflexivity. }
      apply Z.even_spec in Ev as [w Hw]. exists w.
      rewrite Nat2Z.inj_succ. replace (Z.succ (Z.of_nat j) + 2) with (Z.of_nat j + 2 + 1) by lia.
      rewrite (Z.pow_add_r 2 (Z.of_nat j + 2) 1), Z.pow_1_r by lia.
      set (X := 2 ^ (Z.of_nat j + 2)) in *. set (A := multiplier ^ Z.of_nat n) in *. clearbody X A.
      replace (A * (1 + X * u) - t) with ((A - t) + A * X * u) by ring. rewrite Hq.
      replace (q * X + A * X * u) with ((q + A * u) * X) by ring. rewrite Hw. ring.
    + exists n. assert (Ev : Z.even q = true) by (rewrite <- Z.negb_odd, Oq; reflexivity).
      apply Z.even_spec in Ev as [w Hw]. exists w.
      rewrite Hq, Hw, Nat2Z.inj_succ. replace (Z.succ (Z.of_nat j) + 2) with (Z.of_nat j + 2 + 1) by lia.
      rewrite (Z.pow_add_r 2 (Z.of_nat j + 2) 1), Z.pow_1_r by lia. ring.
Qed.

Lemma top_seed_reached : exists n : nat, stream 11 n = 2 ^ 47 - 1.
Proof.
  destruct (pow_reaches 102354536985693 45) as [n [q Hq]]; [reflexivity|].
  exists n. unfold stream. change (2 ^ (Z.of_nat 45 + 2)) with (2 ^ 47) in Hq.
  replace (multiplier ^ Z.of_nat n) with (102354536985693 + q * 2 ^ 47) by lia.
  rewrite Z.mul_add_distr_l, Z.mul_assoc, Z.mod_add by lia. reflexivity.
Qed.

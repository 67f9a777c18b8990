From Coq Require Import List Arith ZArith Bool Lia Permutation Znumtheory.
From Coq Require Import ZifyBool ZifyNat Zpow_facts.
From Verif Require Import Base LayoutModel LayoutSpec LayoutProofs EvalModel RngModel RngSpec RngProofs RngDraw.
Import ListNotations.
Local Open Scope Z_scope.
Ltac Zify.zify_post_hook ::= Z.div_mod_to_equations.

(** ** The order of the multiplier *)

Lemma pow_expand X u n : exists t, (1 + X * u) ^ Z.of_nat n = 1 + X * u * Z.of_nat n + X * X * t.
Proof.
  induction n as [|n [t IH]]; [exists 0; rewrite Z.pow_0_r; lia|].
  rewrite Nat2Z.inj_succ, Z.pow_succ_r, IH by lia.
  exists (t + X * u * t + u * u * Z.of_nat n). unfold Z.succ. ring.
Qed.

Lemma pow_two_adic j : exists u, Z.odd u = true /\ multiplier ^ (2 ^ Z.of_nat j) = 1 + 2 ^ (Z.of_nat j + 2) * u.
Proof.
  induction j as [|j (u & Hu & IH)].
  - exists ((multiplier - 1) / 4). split; reflexivity.
  - exists (u + 2 * (2 ^ Z.of_nat j * u * u)). split.
    + rewrite Z.odd_add, Z.odd_mul, Hu. reflexivity.
    + rewrite Nat2Z.inj_succ. unfold Z.succ at 1. rewrite Z.pow_add_r, Z.pow_1_r by lia.
      rewrite Z.pow_mul_r, IH by lia.
      unfold Z.succ. replace (Z.of_nat j + 1 + 2) with (Z.of_nat j + 3) by lia.
      rewrite !Z.pow_add_r by lia. change (2 ^ 2) with 4. change (2 ^ 3) with 8.
      rewrite Z.pow_2_r. ring.
Qed.

Lemma odd_part (p : BinNums.positive) : exists (j : nat) o, Z.odd o = true /\ 0 < o /\ Z.pos p = 2 ^ Z.of_nat j * o.
Proof.
  induction p as [p IH|p IH|].
  - exists 0%nat, (Z.pos (xI p)). split; [reflexivity|]. split; [lia|]. change (2 ^ Z.of_nat 0) with 1. lia.
  - destruct IH as (j & o & Ho & Hp & E). exists (S j), o. split; [exact Ho|]. split; [exact Hp|].
    rewrite Nat2Z.inj_succ, Z.pow_succ_r by lia. rewrite Pos2Z.inj_xO, E. ring.
  - exists 0%nat, 1. repeat split.
Qed.

Lemma odd_pow2_coprime k v : 0 <= k -> Z.odd v = true -> rel_prime (2 ^ k) v.
Proof.
  intros Hk Hv. apply rel_prime_sym, rel_prime_Zpower_r; [exact Hk|].
  apply rel_prime_sym, prime_rel_prime; [apply prime_2|].
  intros [w ->]. rewrite Z.mul_comm, Z.odd_mul in Hv. discriminate.
Qed.

Lemma mult_pow_not_one d : 0 < d < 2 ^ 45 -> ~ (2 ^ 47 | multiplier ^ d - 1).
Proof.
  intros Hd Hdiv. destruct d as [|p|p]; [lia| |lia].
  destruct (odd_part p) as (j & o & Ho & Hop & E).
  destruct (pow_two_adic j) as (u & Hu & P).
  assert (Hj : Z.of_nat j < 45).
  { destruct (Z.lt_ge_cases (Z.of_nat j) 45) as [H|H]; [exact H|].
    assert (2 ^ 45 <= 2 ^ Z.of_nat j) by (apply Z.pow_le_mono_r; lia). nia. }
  rewrite E, Z.pow_mul_r, P in Hdiv by lia.
  destruct (pow_expand (2 ^ (Z.of_nat j + 2)) u (Z.to_nat o)) as [t T].
  rewrite Z2Nat.id in T by lia. rewrite T in Hdiv.
  replace (1 + 2 ^ (Z.of_nat j + 2) * u * o + 2 ^ (Z.of_nat j + 2) * 2 ^ (Z.of_nat j + 2) * t - 1)
    with (2 ^ (Z.of_nat j + 2) * (u * o + 2 ^ (Z.of_nat j + 2) * t)) in Hdiv by ring.
  assert (Hodd : Z.odd (u * o + 2 ^ (Z.of_nat j + 2) * t) = true).
  { replace (2 ^ (Z.of_nat j + 2)) with (2 * 2 ^ (Z.of_nat j + 1))
      by (rewrite <- Z.pow_succ_r by lia; f_equal; lia).
    rewrite Z.odd_add, Z.odd_mul, Hu, Ho. rewrite <- Z.mul_assoc, Z.odd_mul. reflexivity. }
  replace 47 with ((Z.of_nat j + 2) + (45 - Z.of_nat j)) in Hdiv at 1 by lia.
  rewrite Z.pow_add_r in Hdiv by lia.
  apply Z.mul_divide_cancel_l in Hdiv; [|apply Z.pow_nonzero; lia].
  assert (D2 : (2 | u * o + 2 ^ (Z.of_nat j + 2) * t)).
  { etransitivity; [|exact Hdiv]. exists (2 ^ (44 - Z.of_nat j)).
    rewrite Z.mul_comm, <- Z.pow_succ_r by lia. f_equal. lia. }
  destruct D2 as [w W]. rewrite W, Z.mul_comm, Z.odd_mul in Hodd. discriminate.
Qed.

Lemma mult_order : multiplier ^ (2 ^ 45) mod 2 ^ 47 = 1.
Proof.
  assert (G : forall x, (exists u, x = 1 + 2 ^ 47 * u) -> x mod 2 ^ 47 = 1).
  { intros x [u ->]. rewrite Z.mul_comm, Z.mod_add by lia. reflexivity. }
  apply G. destruct (pow_two_adic 45) as (u & _ & P). exists u. exact P.
Qed.

Lemma odd_mult_pow n : Z.odd (multiplier ^ Z.of_nat n) = true.
Proof.
  induction n as [|n IH]; [reflexivity|].
  rewrite Nat2Z.inj_succ, Z.pow_succ_r by lia. rewrite Z.odd_mul, IH. reflexivity.
Qed.

Lemma stream_inj_lt s n m : Z.odd s = true -> (n < m)%nat -> Z.of_nat m < 2 ^ 45 -> stream s n <> stream s m.
Proof.
  intros Hs Hnm Hm E. unfold stream in E.
  assert (D : (2 ^ 47 | s * multiplier ^ Z.of_nat n * (multiplier ^ Z.of_nat (m - n) - 1))).
  { apply Z.mod_divide; [lia|].
    replace (s * multiplier ^ Z.of_nat n * (multiplier ^ Z.of_nat (m - n) - 1))
      with (s * multiplier ^ Z.of_nat m - s * multiplier ^ Z.of_nat n).
    2:{ replace m with (n + (m - n))%nat at 1 by lia. rewrite Nat2Z.inj_add, Z.pow_add_r by lia. ring. }
    rewrite Zminus_mod, E, Z.sub_diag. reflexivity. }
  apply (Gauss (2 ^ 47)) in D.
  - revert D. apply mult_pow_not_one. lia.
  - apply odd_pow2_coprime; [lia|]. rewrite Z.odd_mul, Hs, odd_mult_pow. reflexivity.
Qed.

Lemma stream_inj s n m : Z.odd s = true -> Z.of_nat n < 2 ^ 45 -> Z.of_nat m < 2 ^ 45 ->
  stream s n = stream s m -> n = m.
Proof.
  intros Hs Hn Hm E. destruct (Nat.lt_trichotomy n m) as [H|[H|H]]; [|exact H|].
  - exfalso. exact (stream_inj_lt s n m Hs H Hm E).
  - exfalso. exact (stream_inj_lt s m n Hs H Hn (eq_sym E)).
Qed.

Lemma stream_period s n m : Z.of_nat m = 2 ^ 45 -> stream s (n + m) = stream s n.
Proof.
  intros Hm. unfold stream. rewrite Nat2Z.inj_add, Hm, Z.pow_add_r, Z.mul_assoc by lia.
  rewrite <- Z.mul_mod_idemp_r, mult_order, Z.mul_1_r by lia. reflexivity.
Qed.

(** ** Histories *)

Lemma offset_step L h j d : nth_error h j = Some d -> offset L h (S j) = (offset L h j + advance L d)%nat.
Proof.
  unfold offset. revert j. induction h as [|x h IH]; intros [|j]; cbn [nth_error]; try discriminate.
  - intros E. injection E as ->. cbn [firstn map list_sum fold_right]. lia.
  - intros E. specialize (IH j E). cbn [firstn map] in *. unfold list_sum in *. cbn [fold_right] in *. lia.
Qed.

Lemma offset_mono L h i j : (i <= j)%nat -> (offset L h i <= offset L h j)%nat.
Proof.
  intros H. induction H as [|j H IH]; [lia|].
  destruct (nth_error h j) as [d|] eqn:E.
  - rewrite (offset_step L h j d E). lia.
  - apply nth_error_None in E. unfold offset in *. rewrite (firstn_all2 (n := S j)) by lia.
    rewrite (firstn_all2 (n := j)) in IH by lia. exact IH.
Qed.

(** The exponent behind a number, relative to the seed before the draw. *)
Definition expo (L : list nat) (d : draw) (c : list nat) (w : nat) : nat :=
  match d with DScalar _ => 1 + w | DLattice _ _ => lexnum L c + 1 + (volume L + 1) * w end.

Lemma number_expo L s d c w n : number_of L (stream s n) d c w = stream s (n + expo L d c w).
Proof. destruct d; cbn [number_of expo]; unfold scalar_number, lattice_number; apply stream_add. Qed.

Lemma expo_bounds L d c w : (match d with DScalar _ => True | DLattice _ _ => in_lattice L c end) ->
  (w < words_of d)%nat -> (0 < expo L d c w <= advance L d)%nat.
Proof.
  destruct d as [k|k tab]; cbn [expo advance words_of]; intros H Hw; [lia|].
  pose proof (lexnum_lt _ _ H). nia.
Qed.

Lemma expo_inj L d c c' w w' :
  (match d with DScalar _ => True | DLattice _ _ => in_lattice L c /\ in_lattice L c' end) ->
  expo L d c w = expo L d c' w' -> same_position d c c' w w'.
Proof.
  destruct d as [k|k tab]; cbn [expo same_position]; intros H E; [lia|].
  destruct H as [H H']. pose proof (lexnum_lt _ _ H). pose proof (lexnum_lt _ _ H').
  assert (w = w').
  { set (a := lexnum L c) in *. set (b := lexnum L c') in *. set (V := volume L) in *. clearbody a b V.
    destruct (Nat.lt_trichotomy w w') as [K|[K|K]]; [|exact K|].
    - pose proof (Nat.mul_le_mono_l (w + 1) w' (V + 1) ltac:(lia)). lia.
    - pose proof (Nat.mul_le_mono_l (w' + 1) w (V + 1) ltac:(lia)). lia. }
  subst w'. split; [|reflexivity]. apply (lexnum_inj L); [assumption|assumption|lia].
Qed.

Lemma history_distinct L s h j j' d d' c c' w w' : Z.odd s = true ->
  Z.of_nat (offset L h (length h)) < 2 ^ 45 ->
  nth_error h j = Some d -> nth_error h j' = Some d' ->
  (match d with DScalar _ => True | DLattice _ _ => in_lattice L c end) ->
  (match d' with DScalar _ => True | DLattice _ _ => in_lattice L c' end) ->
  (w < words_of d)%nat -> (w' < words_of d')%nat ->
  number_of L (stream s (offset L h j)) d c w = number_of L (stream s (offset L h j')) d' c' w' ->
  j = j' /\ same_position d c c' w w'.
Proof.
  intros Hs Ht Hj Hj' Hc Hc' Hw Hw' E. rewrite !number_expo in E.
  pose proof (expo_bounds L d c w Hc Hw) as B. pose proof (expo_bounds L d' c' w' Hc' Hw') as B'.
  assert (Lj : (S j <= length h)%nat) by (apply nth_error_Some; rewrite Hj; discriminate).
  assert (Lj' : (S j' <= length h)%nat) by (apply nth_error_Some; rewrite Hj'; discriminate).
  pose proof (offset_mono L h (S j) (length h) Lj) as M. pose proof (offset_mono L h (S j') (length h) Lj') as M'.
  rewrite (offset_step L h j d Hj) in M. rewrite (offset_step L h j' d' Hj') in M'.
  apply stream_inj in E; [|exact Hs|lia|lia].
  assert (j = j').
  { destruct (Nat.lt_trichotomy j j') as [K|[K|K]]; [|exact K|]; exfalso.
    - pose proof (offset_mono L h (S j) j' K) as N. rewrite (offset_step L h j d Hj) in N. lia.
    - pose proof (offset_mono L h (S j') j K) as N. rewrite (offset_step L h j' d' Hj') in N. lia. }
  subst j'. rewrite Hj in Hj'. injection Hj' as <-. split; [reflexivity|].
  apply (expo_inj L).
  - destruct d; [exact I|split; assumption].
  - lia.
Qed.

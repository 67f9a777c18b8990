(** Proofs about rounding to digits. *)
From Coq Require Import List Bool ZArith Lia.
From Verif Require Import XmlModel RealTextModel RealTextSpec.
Import ListNotations.
Local Open Scope Z_scope.

(** ** The nearest multiple *)
Lemma half_even_cases n g : 0 < g -> let q := n / g in let r := n mod g in
  n = q * g + r /\ 0 <= r < g /\
  ((2 * r < g /\ half_even n g = q) \/ (g < 2 * r /\ half_even n g = q + 1) \/
   (2 * r = g /\ Z.even q = true /\ half_even n g = q) \/ (2 * r = g /\ Z.even q = false /\ half_even n g = q + 1)).
Proof.
  intros Hg q r. pose proof (Z.div_mod n g ltac:(lia)) as D. pose proof (Z.mod_pos_bound n g Hg) as M. fold q r in D, M.
  split; [lia|]. split; [exact M|]. unfold half_even. fold q r.
  destruct (Z.ltb_spec (2 * r) g); [auto|]. destruct (Z.ltb_spec g (2 * r)); [auto|].
  destruct (Z.even q) eqn:E; [right; right; left|right; right; right]; repeat split; lia.
Qed.
Lemma half_even_near n g : 0 < g -> 2 * Z.abs (half_even n g * g - n) <= g.
Proof. intros Hg. destruct (half_even_cases n g Hg) as (E & M & C). destruct C as [[? ->]|[[? ->]|[(? & ? & ->)|(? & ? & ->)]]]; nia. Qed.
Lemma half_even_best n g k : 0 < g -> Z.abs (half_even n g * g - n) <= Z.abs (k * g - n).
Proof.
  intros Hg. destruct (half_even_cases n g Hg) as (E & M & C). set (q := n / g) in *. set (r := n mod g) in *.
  assert (K : (k <= q /\ r <= n - k * g) \/ (q + 1 <= k /\ g - r <= k * g - n)) by (destruct (Z_le_gt_dec k q); [left|right]; nia).
  destruct C as [[? ->]|[[? ->]|[(? & ? & ->)|(? & ? & ->)]]]; destruct K as [[? ?]|[? ?]]; lia.
Qed.
Lemma half_even_is n g m : 0 < g -> 2 * Z.abs (n - m * g) < g \/ (2 * Z.abs (n - m * g) = g /\ Z.even m = true) -> half_even n g = m.
Proof.
  intros Hg H. destruct (half_even_cases n g Hg) as (E & M & C). set (q := n / g) in *. set (r := n mod g) in *. rewrite E in H.
  assert (Q : m = q \/ m = q + 1) by (destruct (Z.lt_trichotomy m q) as [?|[?|?]]; [exfalso; destruct H as [H|[H _]]; nia|auto|]; destruct (Z.eq_dec m (q + 1)); [auto|exfalso; destruct H as [H|[H _]]; nia]).
  destruct Q as [->| ->].
  - replace (q * g + r - q * g) with r in H by lia. rewrite Z.abs_eq in H by lia.
    destruct C as [[? ->]|[[? ->]|[(? & ? & ->)|(? & EV & ->)]]]; try reflexivity; destruct H as [H|[H EV']]; try lia; congruence.
  - replace (q * g + r - (q + 1) * g) with (- (g - r)) in H by lia. rewrite Z.abs_opp, Z.abs_eq in H by lia.
    destruct C as [[? ->]|[[? ->]|[(? & EV & ->)|(? & EV & ->)]]]; try reflexivity; destruct H as [H|[H EV']]; try lia.
    replace (q + 1) with (Z.succ q) in EV' by lia. rewrite Z.even_succ in EV'. rewrite <- Z.negb_even, EV in EV'. discriminate.
Qed.

(** ** The step *)
Section Digits.
  Context (r p g0 : Z) (Hr : 2 <= r) (He : Z.even r = true) (Hp : 1 <= p) (H0 : 0 < g0).
  Definition step (n : Z) : Z := step_of (S (Z.to_nat (Z.log2 n))) r n g0 (g0 * r ^ p).
  Notation rnd := (to_digits r p g0).
  Lemma rp_pos : 0 < r ^ p.
  Proof. apply Z.pow_pos_nonneg; lia. Qed.
  Lemma rp_succ : r ^ p = r * r ^ (p - 1).
  Proof. rewrite <- Z.pow_succ_r by lia. f_equal. lia. Qed.
  Lemma step_of_ok fuel : forall n i, 0 <= n -> 0 <= i -> (i = 0 \/ g0 * r ^ i * r ^ (p - 1) <= n) -> n < 2 ^ (i + Z.of_nat fuel) ->
    exists k, i <= k /\ step_of fuel r n (g0 * r ^ i) (g0 * r ^ i * r ^ p) = g0 * r ^ k /\ n < g0 * r ^ k * r ^ p /\ (k = 0 \/ g0 * r ^ k * r ^ (p - 1) <= n).
  Proof.
    pose proof rp_pos. induction fuel as [|f IH]; intros n i Hn Hi HL HF.
    - exists i. split; [lia|]. split; [reflexivity|]. split; [|exact HL]. rewrite Nat2Z.inj_0, Z.add_0_r in HF.
      assert (2 ^ i <= r ^ i) by (apply Z.pow_le_mono_l; lia). assert (0 < r ^ i) by (apply Z.pow_pos_nonneg; lia). assert (1 * r ^ i <= g0 * r ^ i) by nia. assert (g0 * r ^ i * 1 <= g0 * r ^ i * r ^ p) by (apply Z.mul_le_mono_nonneg_l; lia). lia.
    - cbn [step_of]. destruct (Z.ltb_spec n (g0 * r ^ i * r ^ p)); [exists i; auto with zarith|].
      assert (E : g0 * r ^ i * r = g0 * r ^ (i + 1)) by (rewrite Z.pow_add_r by lia; rewrite Z.pow_1_r; ring).
      replace (g0 * r ^ i * r ^ p * r) with (g0 * r ^ (i + 1) * r ^ p) by (rewrite <- E; ring). rewrite E.
      destruct (IH n (i + 1)) as (k & K1 & K2 & K3 & K4); [exact Hn|lia| |replace (i + 1 + Z.of_nat f) with (i + Z.of_nat (S f)) by lia; exact HF|].
      + right. rewrite <- E. rewrite rp_succ in H1. nia.
      + exists k. split; [lia|]. auto.
  Qed.
  Lemma step_ok n : 0 <= n -> exists k, 0 <= k /\ step n = g0 * r ^ k /\ n < step n * r ^ p /\ (k = 0 \/ step n * r ^ (p - 1) <= n).
  Proof.
    intros Hn. unfold step. pose proof (step_of_ok (S (Z.to_nat (Z.log2 n))) n 0 Hn ltac:(lia) ltac:(auto)) as H.
    rewrite Z.pow_0_r, Z.mul_1_r in H. destruct H as (k & K1 & K2 & K3 & K4).
    - rewrite Nat2Z.inj_succ, Z2Nat.id by apply Z.log2_nonneg. rewrite Z.add_0_l. destruct (Z.eq_dec n 0) as [->|]; [cbn; lia|].
      apply Z.log2_spec. lia.
    - exists k. rewrite K2. auto.
  Qed.
  Lemma rnd_step n : rnd n = half_even n (step n) * step n.
  Proof. reflexivity. Qed.
  Lemma step_pos n : 0 <= n -> 0 < step n.
  Proof. intros H. destruct (step_ok n H) as (k & K & -> & _). assert (0 < r ^ k) by (apply Z.pow_pos_nonneg; lia). nia. Qed.
  (** no two steps fit *)
  Lemma step_unique n k : 0 <= n -> 0 <= k -> n < g0 * r ^ k * r ^ p -> (k = 0 \/ g0 * r ^ k * r ^ (p - 1) <= n) -> step n = g0 * r ^ k.
  Proof.
    intros Hn Hk U L. destruct (step_ok n Hn) as (j & J & E & U' & L'). rewrite E in *. f_equal. f_equal.
    assert (G : forall a b, 0 <= a -> a < b -> n < g0 * r ^ a * r ^ p -> g0 * r ^ b * r ^ (p - 1) <= n -> False).
    { clear - Hr Hp H0. intros a b Ha Hab X Y. assert (r ^ (a + 1) <= r ^ b) by (apply Z.pow_le_mono_r; lia).
      rewrite Z.pow_add_r, Z.pow_1_r in H by lia. rewrite rp_succ in X. assert (0 < r ^ (p - 1)) by (apply Z.pow_pos_nonneg; lia). 
      assert (g0 * (r ^ a * r) * r ^ (p - 1) <= g0 * r ^ b * r ^ (p - 1)) by (apply Z.mul_le_mono_nonneg_r; nia). lia. }
    destruct (Z.lt_trichotomy j k) as [X|[X|X]]; [exfalso|exact X|exfalso].
    - destruct L as [->|L]; [lia|]. exact (G j k J X U' L).
    - destruct L' as [->|L']; [lia|]. exact (G k j Hk X U L').
  Qed.
  Lemma rnd_near n : 0 <= n -> 2 * Z.abs (rnd n - n) <= step n.
  Proof. intros H. rewrite rnd_step. apply half_even_near. now apply step_pos. Qed.
  Lemma rnd_nonneg n : 0 <= n -> 0 <= rnd n.
  Proof. intros H. rewrite rnd_step. pose proof (step_pos n H) as G. destruct (half_even_cases n (step n) G) as (E & M & C). assert (0 <= n / step n) by (apply Z.div_pos; lia). destruct C as [[? ->]|[[? ->]|[(? & ? & ->)|(? & ? & ->)]]]; nia. Qed.
  (** nothing with p digits is nearer *)
  Lemma rnd_best n m i : 0 <= n -> 0 <= i -> 0 <= m < r ^ p -> Z.abs (rnd n - n) <= Z.abs (m * (g0 * r ^ i) - n).
  Proof.
    intros Hn Hi Hm. rewrite rnd_step. pose proof (step_pos n Hn) as G. destruct (step_ok n Hn) as (k & K & E & U & L).
    destruct (Z_le_gt_dec k i) as [X|X].
    - replace (m * (g0 * r ^ i)) with (m * r ^ (i - k) * step n); [now apply half_even_best|]. rewrite E.
      replace i with ((i - k) + k) at 2 by lia. rewrite Z.pow_add_r by lia. ring.
    - destruct L as [->|L]; [lia|]. pose proof (half_even_best n (step n) (r ^ (p - 1)) G) as B. rewrite Z.mul_comm in L.
      rewrite (Z.abs_neq (r ^ (p - 1) * step n - n)) in B by lia. rewrite (Z.abs_neq (m * (g0 * r ^ i) - n)); [|].
      + assert (m * (g0 * r ^ i) <= r ^ (p - 1) * step n); [|lia]. rewrite E. replace k with ((k - 1 - i) + i + 1) by lia. rewrite !Z.pow_add_r, Z.pow_1_r by lia.
        rewrite rp_succ in Hm. assert (0 < r ^ i) by (apply Z.pow_pos_nonneg; lia). assert (1 <= r ^ (k - 1 - i)) by (apply Z.lt_pred_le; cbn; apply Z.pow_pos_nonneg; lia).
        assert (m * (g0 * r ^ i) <= r * r ^ (p - 1) * (g0 * r ^ i)) by (apply Z.mul_le_mono_nonneg_r; nia).
        assert (r * r ^ (p - 1) * (g0 * r ^ i) * 1 <= r * r ^ (p - 1) * (g0 * r ^ i) * r ^ (k - 1 - i)) by (apply Z.mul_le_mono_nonneg_l; [|lia]; assert (0 < r ^ (p - 1)) by (apply Z.pow_pos_nonneg; lia); nia).
        replace (r ^ (p - 1) * (g0 * (r ^ (k - 1 - i) * r ^ i * r))) with (r * r ^ (p - 1) * (g0 * r ^ i) * r ^ (k - 1 - i)) by ring. lia.
      + assert (m * (g0 * r ^ i) <= n); [|lia]. 
        assert (m * (g0 * r ^ i) <= r ^ (p - 1) * step n); [|lia]. rewrite E. replace k with ((k - 1 - i) + i + 1) by lia. rewrite !Z.pow_add_r, Z.pow_1_r by lia.
        rewrite rp_succ in Hm. assert (0 < r ^ i) by (apply Z.pow_pos_nonneg; lia). assert (1 <= r ^ (k - 1 - i)) by (apply Z.lt_pred_le; cbn; apply Z.pow_pos_nonneg; lia).
        assert (m * (g0 * r ^ i) <= r * r ^ (p - 1) * (g0 * r ^ i)) by (apply Z.mul_le_mono_nonneg_r; nia).
        assert (r * r ^ (p - 1) * (g0 * r ^ i) * 1 <= r * r ^ (p - 1) * (g0 * r ^ i) * r ^ (k - 1 - i)) by (apply Z.mul_le_mono_nonneg_l; [|lia]; assert (0 < r ^ (p - 1)) by (apply Z.pow_pos_nonneg; lia); nia).
        replace (r ^ (p - 1) * (g0 * (r ^ (k - 1 - i) * r ^ i * r))) with (r * r ^ (p - 1) * (g0 * r ^ i) * r ^ (k - 1 - i)) by ring. lia.
  Qed.
  Lemma rnd_self m i : 0 <= i -> 0 <= m < r ^ p -> rnd (m * (g0 * r ^ i)) = m * (g0 * r ^ i).
  Proof.
    intros Hi Hm. assert (0 < r ^ i) by (apply Z.pow_pos_nonneg; lia).
    assert (Hn : 0 <= m * (g0 * r ^ i)) by nia. pose proof (rnd_best _ m i Hn Hi Hm) as B. rewrite Z.sub_diag in B. cbn [Z.abs] in B. lia.
  Qed.
  (** a number is rounded to [m] steps if it is near enough *)
  Lemma rnd_is n m i : 0 <= n -> 0 <= i -> r ^ (p - 1) <= m < r ^ p ->
    let g := g0 * r ^ i in
    2 * Z.abs (n - m * g) < g \/ (2 * Z.abs (n - m * g) = g /\ Z.even m = true) ->
    (m = r ^ (p - 1) -> n < m * g -> i = 0 \/ 2 * r * (m * g - n) <= g) ->
    rnd n = m * g.
  Proof.
    intros Hn Hi Hm g H HL. assert (PI : 0 < r ^ i) by (apply Z.pow_pos_nonneg; lia). assert (Hg : 0 < g) by (unfold g; nia).
    destruct (Z_lt_le_dec n (g * r ^ (p - 1))) as [X|X].
    - destruct (Z.eq_dec i 0) as [->|NI].
      { assert (S0 : step n = g).
        { unfold g. apply step_unique; [exact Hn|lia| |auto]. fold g. rewrite rp_succ. assert (0 < r ^ (p - 1)) by (apply Z.pow_pos_nonneg; lia).
          assert (g * r ^ (p - 1) * 1 <= g * r ^ (p - 1) * r) by (apply Z.mul_le_mono_nonneg_l; nia). lia. }
        rewrite rnd_step, S0. f_equal. apply half_even_is; assumption. }
      assert (EM : m = r ^ (p - 1)).
      { destruct (Z.eq_dec m (r ^ (p - 1))); [assumption|]. exfalso. assert (g * (r ^ (p - 1) + 1) <= m * g) by nia. 
        rewrite Z.abs_neq in H by lia. lia. }
      destruct (HL EM) as [Y|Y]; [rewrite EM; lia|lia|]. 
      set (g' := g0 * r ^ (i - 1)). assert (EG : g = r * g').
      { unfold g, g'. replace (r ^ i) with (r ^ (i - 1) * r); [ring|]. rewrite <- (Z.pow_1_r r) at 2. rewrite <- Z.pow_add_r by lia. f_equal. lia. }
      assert (Hg' : 0 < g') by nia. pose proof rp_succ as RS. assert (PP : 0 < r ^ (p - 1)) by (apply Z.pow_pos_nonneg; lia).
      assert (EV : m * g = r ^ p * g') by (rewrite EM, EG, RS; ring). rewrite EV in *.
      assert (Y' : 2 * (r ^ p * g' - n) <= g') by nia.
      assert (S' : step n = g').
      { unfold g'. apply step_unique; [exact Hn|lia|fold g'; rewrite EG in X; rewrite RS; nia|]. right. fold g'.
        assert (2 * r ^ (p - 1) <= r ^ p) by (rewrite RS; nia). assert (2 * r ^ (p - 1) * g' <= r ^ p * g') by (apply Z.mul_le_mono_nonneg_r; lia).
        assert (1 * g' <= r ^ (p - 1) * g') by (apply Z.mul_le_mono_nonneg_r; lia). lia. }
      rewrite rnd_step, S'. f_equal. apply half_even_is; [exact Hg'|]. rewrite Z.abs_neq by lia.
      destruct (Z.eq_dec (2 * (r ^ p * g' - n)) g') as [Z1|Z1]; [right|left; lia]. split; [lia|]. rewrite RS, Z.even_mul, He. reflexivity.
    - assert (U : n < g * r ^ p).
      { assert (n <= m * g + g / 2 \/ 2 * n <= 2 * m * g + g) by (right; destruct H as [H|[H _]]; lia). destruct H1 as [H1|H1].
        - assert (g / 2 < g) by (apply Z.div_lt; lia). assert ((m + 1) * g <= r ^ p * g) by (apply Z.mul_le_mono_nonneg_r; lia). lia.
        - assert ((m + 1) * g <= r ^ p * g) by (apply Z.mul_le_mono_nonneg_r; lia). lia. }
      assert (S0 : step n = g) by (unfold g; apply step_unique; [exact Hn|exact Hi|exact U|right; exact X]).
      rewrite rnd_step, S0. f_equal. apply half_even_is; assumption.
  Qed.
End Digits.

(** Writing with p decimal digits and reading with P binary digits. *)
From Coq Require Import List Bool ZArith Lia.
From Verif Require Import XmlModel RealTextModel RealTextSpec RealTextProofs.
Import ListNotations.
Local Open Scope Z_scope.

Section Main.
  Context (p P c0 : Z) (Hp : 2 <= p) (HP : 1 <= P) (Hc : 10 ^ (p - 1) <= c0).
  Notation D := (to_digits 10 p 1).
  Notation F := (to_digits 2 P c0).
  Lemma ten_pos k : 0 <= k -> 0 < 10 ^ k.
  Proof. intros. apply Z.pow_pos_nonneg; lia. Qed.
  Lemma c0_pos : 0 < c0.
  Proof. pose proof (ten_pos (p - 1) ltac:(lia)). lia. Qed.
  Lemma ten_p : 10 ^ p = 10 * 10 ^ (p - 1).
  Proof. apply rp_succ; lia. Qed.
  Lemma even_ten : Z.even (10 ^ (p - 1)) = true.
  Proof. replace (p - 1) with (Z.succ (p - 2)) by lia. rewrite Z.pow_succ_r by lia. rewrite Z.even_mul. reflexivity. Qed.

  Lemma dec_form n : c0 <= n -> exists k q, 0 <= k /\ D n = q * 10 ^ k /\ 10 ^ (p - 1) <= q <= 10 ^ p /\ 2 * Z.abs (D n - n) <= 10 ^ k /\
    (2 * Z.abs (D n - n) = 10 ^ k -> Z.even q = true) /\ 10 ^ (p - 1) * 10 ^ k <= n < 10 ^ p * 10 ^ k.
  Proof.
    intros H. pose proof c0_pos as C0. assert (Hn : 0 <= n) by lia.
    destruct (step_ok 10 p 1 ltac:(lia) ltac:(lia) ltac:(lia) n Hn) as (k & K & E & U & L). rewrite Z.mul_1_l in E.
    assert (G : 0 < 10 ^ k) by now apply ten_pos.
    assert (L' : 10 ^ (p - 1) * 10 ^ k <= n).
    { destruct L as [->|L]; [rewrite Z.pow_0_r; lia|]. rewrite E in L. lia. }
    exists k, (half_even n (10 ^ k)). rewrite rnd_step, E. rewrite E in U. split; [exact K|]. split; [reflexivity|].
    pose proof (half_even_near n (10 ^ k) G) as NE. destruct (half_even_cases n (10 ^ k) G) as (EQ & M & C). set (q := n / 10 ^ k) in *. set (r := n mod 10 ^ k) in *.
    assert (Q1 : 10 ^ (p - 1) <= q) by (assert (10 ^ (p - 1) * 10 ^ k < (q + 1) * 10 ^ k) by lia; apply Z.mul_lt_mono_pos_r in H0; lia).
    assert (Q2 : q < 10 ^ p) by (apply (Z.mul_lt_mono_pos_r (10 ^ k)); lia).
    split; [destruct C as [[? ->]|[[? ->]|[(? & ? & ->)|(? & ? & ->)]]]; lia|]. split; [exact NE|]. split; [|lia].
    intros T. destruct C as [[? HE]|[[? HE]|[(? & ? & HE)|(? & EV & HE)]]]; rewrite HE in *.
    - exfalso. rewrite Z.abs_neq in T by lia. lia.
    - exfalso. rewrite Z.abs_eq in T by lia. lia.
    - assumption.
    - replace (q + 1) with (Z.succ q) by lia. rewrite Z.even_succ, <- Z.negb_even, EV. reflexivity.
  Qed.

  Lemma read_near n m i : c0 <= n -> 0 <= i -> 0 <= m < 2 ^ P -> n = m * (c0 * 2 ^ i) -> Z.abs (F (D n) - D n) <= Z.abs (n - D n).
  Proof.
    intros H Hi Hm E. rewrite E at 3. apply rnd_best; [lia|exact HP|exact c0_pos| |exact Hi|exact Hm].
    destruct (dec_form n H) as (k & q & K & T & Q & _). rewrite T. pose proof (ten_pos k K). pose proof (ten_pos (p - 1) ltac:(lia)). nia.
  Qed.
  Lemma read_pos n m i : c0 <= n -> 0 <= i -> 0 <= m < 2 ^ P -> n = m * (c0 * 2 ^ i) -> 0 < F (D n) /\ 0 < D n.
  Proof.
    intros H Hi Hm E. pose proof (read_near n m i H Hi Hm E) as RN. destruct (dec_form n H) as (k & q & K & T & Q & N2 & _).
    rewrite <- Z.abs_opp in N2. replace (- (D n - n)) with (n - D n) in N2 by lia.
    pose proof (ten_pos k K). pose proof (ten_pos (p - 1) ltac:(lia)). assert (1 * 10 ^ k <= q * 10 ^ k) by (apply Z.mul_le_mono_nonneg_r; lia). lia.
  Qed.
  (** Writing again *)
  Lemma stable n m i : c0 <= n -> 0 <= i -> 0 <= m < 2 ^ P -> n = m * (c0 * 2 ^ i) ->
    (forall k, 0 <= k -> D n = 10 ^ (p - 1) * 10 ^ k -> 2 * Z.abs (D n - n) <= 10 ^ k -> F (D n) < D n -> 20 * (D n - F (D n)) <= 10 ^ k) ->
    D (F (D n)) = D n.
  Proof.
    intros H Hi Hm E HK. pose proof (read_near n m i H Hi Hm E) as RN. destruct (read_pos n m i H Hi Hm E) as [Y0 T0].
    destruct (dec_form n H) as (k & q & K & T & Q & N2 & EV & _). set (t := D n) in *. set (y := F t) in *.
    pose proof (ten_pos k K) as PK. pose proof ten_p as TP. pose proof (ten_pos (p - 1) ltac:(lia)) as PP.
    assert (N2' : 2 * Z.abs (y - t) <= 10 ^ k) by (rewrite <- (Z.abs_opp (t - n)) in N2; replace (- (t - n)) with (n - t) in N2 by lia; lia).
    destruct (Z.eq_dec q (10 ^ p)) as [->|NQ].
    - assert (K1 : 10 ^ (k + 1) = 10 * 10 ^ k) by (rewrite Z.pow_add_r by lia; rewrite Z.pow_1_r; lia).
      assert (TT : t = 10 ^ (p - 1) * (1 * 10 ^ (k + 1))) by (rewrite T, K1, TP; ring).
      rewrite (rnd_is 10 p 1 ltac:(lia) eq_refl ltac:(lia) ltac:(lia) y (10 ^ (p - 1)) (k + 1)); [symmetry; exact TT|lia|lia|lia| |].
      + left. rewrite <- TT. lia.
      + intros _ LT. right. rewrite <- TT in *. rewrite Z.abs_neq in N2' by lia. lia.
    - assert (TT : t = q * (1 * 10 ^ k)) by lia. rewrite (rnd_is 10 p 1 ltac:(lia) eq_refl ltac:(lia) ltac:(lia) y q k); [symmetry; exact TT|lia|lia|lia| |].
      + rewrite <- TT. destruct (Z.eq_dec (2 * Z.abs (y - t)) (10 ^ k)) as [TI|TI]; [right|left; lia]. split; [lia|]. apply EV.
        rewrite <- (Z.abs_opp (t - n)) in *. replace (- (t - n)) with (n - t) in * by lia. lia.
      + intros -> LT. right. rewrite <- TT in *. rewrite Z.mul_1_l. specialize (HK k K T N2 LT). lia.
  Qed.
  (** the step of the binary number is small *)
  Lemma bin_step t : 0 <= t -> 2 * Z.abs (F t - t) <= step 2 P c0 t /\ 0 < step 2 P c0 t /\ (step 2 P c0 t = c0 \/ step 2 P c0 t * 2 ^ (P - 1) <= t).
  Proof.
    intros H. split; [apply rnd_near; [lia|exact HP|exact c0_pos|exact H]|]. split; [apply step_pos; [lia|exact HP|exact c0_pos|exact H]|].
    destruct (step_ok 2 P c0 ltac:(lia) HP c0_pos t H) as (k & K & E & U & L). destruct L as [->|L]; [left; rewrite E, Z.pow_0_r; lia|right; exact L].
  Qed.
  Lemma power_small n : 2 ^ (P - 1) * c0 <= n -> 10 ^ p + 5 <= 2 ^ (P - 1) ->
    forall k, 0 <= k -> D n = 10 ^ (p - 1) * 10 ^ k -> 2 * Z.abs (D n - n) <= 10 ^ k -> F (D n) < D n -> 20 * (D n - F (D n)) <= 10 ^ k.
  Proof.
    intros H B k K T N2 LT. assert (T0 : 0 <= D n) by (rewrite T; pose proof (ten_pos k K); pose proof (ten_pos (p - 1) ltac:(lia)); nia).
    destruct (bin_step (D n) T0) as (B1 & B2 & B3). set (s := step 2 P c0 (D n)) in *. set (t := D n) in *. set (y := F t) in *.
    pose proof (ten_pos k K) as PK. pose proof ten_p as TP.
    assert (S1 : 2 * (s * 2 ^ (P - 1)) <= 2 * t + 10 ^ k) by (destruct B3 as [->|B3]; lia).
    assert (S2 : 2 * s * (10 ^ p + 5) <= 2 * s * 2 ^ (P - 1)) by (apply Z.mul_le_mono_nonneg_l; lia).
    rewrite Z.abs_neq in B1 by lia.
    assert (S3 : s * 10 * (10 ^ p + 5) <= 10 ^ k * (10 ^ p + 5)) by (rewrite T, TP in *; nia).
    apply Z.mul_le_mono_pos_r in S3; [lia|]. pose proof (ten_pos p ltac:(lia)). lia.
  Qed.
  (** Decimal numbers *)
  Lemma typed v : c0 * 2 ^ (P - 1) <= v -> c0 <= v -> D v = v -> 10 ^ p < 2 ^ (P - 1) -> D (F v) = v /\ 0 < F v.
  Proof.
    intros H H1 E B. destruct (dec_form v H1) as (k & q & K & T & Q & N2 & EV & R). rewrite E in *. pose proof c0_pos as C0.
    destruct (bin_step v ltac:(lia)) as (B1 & B2 & B3). set (s := step 2 P c0 v) in *. set (y := F v) in *.
    pose proof (ten_pos k K) as PK. pose proof ten_p as TP. pose proof (ten_pos (p - 1) ltac:(lia)) as PP.
    assert (QL : q < 10 ^ p) by (apply (Z.mul_lt_mono_pos_r (10 ^ k)); lia).
    assert (S1 : s * 2 ^ (P - 1) <= v) by (destruct B3 as [->|B3]; lia).
    assert (S2 : s < 10 ^ k).
    { apply (Z.mul_lt_mono_pos_r (2 ^ (P - 1))); [lia|]. assert (q * 10 ^ k < 2 ^ (P - 1) * 10 ^ k) by (apply Z.mul_lt_mono_pos_r; lia). lia. }
    assert (Y0 : 0 < y) by (assert (1 * 10 ^ k <= q * 10 ^ k) by (apply Z.mul_le_mono_nonneg_r; lia); lia).
    split; [|exact Y0]. assert (TT : v = q * (1 * 10 ^ k)) by lia.
    rewrite (rnd_is 10 p 1 ltac:(lia) eq_refl ltac:(lia) ltac:(lia) y q k); [symmetry; exact TT|lia|lia|lia| |].
    - left. rewrite <- TT. lia.
    - intros -> LT. right. rewrite <- TT in *. rewrite Z.abs_neq in B1 by lia.
      assert (S3 : 10 * s < 10 ^ k).
      { apply (Z.mul_lt_mono_pos_r (2 ^ (P - 1))); [lia|]. assert (10 ^ p * 10 ^ k < 2 ^ (P - 1) * 10 ^ k) by (apply Z.mul_lt_mono_pos_r; lia). rewrite TP in *. lia. }
      lia.
  Qed.
  Lemma near n m i : c0 <= n -> 0 <= i -> 0 <= m < 2 ^ P -> n = m * (c0 * 2 ^ i) -> Z.abs (F (D n) - n) * 10 ^ (p - 1) <= n.
  Proof.
    intros H Hi Hm E. pose proof (read_near n m i H Hi Hm E) as RN. destruct (dec_form n H) as (k & q & K & T & Q & N2 & _ & R).
    pose proof (ten_pos k K) as PK. pose proof (ten_pos (p - 1) ltac:(lia)) as PP. assert (X : Z.abs (F (D n) - n) <= 10 ^ k) by lia.
    assert (Z.abs (F (D n) - n) * 10 ^ (p - 1) <= 10 ^ k * 10 ^ (p - 1)) by (apply Z.mul_le_mono_nonneg_r; lia). lia.
  Qed.
End Main.
Lemma to_digits_0 r p g0 : 2 <= r -> 1 <= p -> 0 < g0 -> to_digits r p g0 0 = 0.
Proof.
  intros. pose proof (rnd_best r p g0 ltac:(lia) ltac:(lia) ltac:(lia) 0 0 0 ltac:(lia) ltac:(lia)) as B.
  assert (0 < r ^ p) by (apply Z.pow_pos_nonneg; lia). specialize (B ltac:(lia)). rewrite Z.mul_0_l in B. cbn [Z.abs] in B. lia.
Qed.

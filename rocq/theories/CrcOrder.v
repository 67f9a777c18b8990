(** The period of the shift register is 2^32-1; detection of two wrong bits. *)
From Coq Require Import List Arith NArith ZArith Bool Lia Znumtheory.
From Coq Require Import ZifyBool ZifyNat ZifyN.
From Verif Require Import Base CrcModel CrcSpec CrcProofs.
Import ListNotations.
Local Open Scope N_scope.
Notation T := (table_step POLY).

(** Linear maps on 32-bit words as the list of images of 1, 2, 4, ... *)
Definition basis : list N := map (fun i => 2 ^ N.of_nat i) (seq 0 32).
Fixpoint app_from (M : list N) (v : N) : N :=
  match M with
  | [] => 0
  | m :: M' => N.lxor (if N.testbit v 0 then m else 0) (app_from M' (v / 2))
  end.
Definition comp (M1 M2 : list N) : list N := map (app_from M1) M2.
Definition mat_T : list N := map T basis.
Fixpoint mat_pow (p : positive) : list N :=
  match p with
  | xH => mat_T
  | xO q => let M := mat_pow q in comp M M
  | xI q => let M := mat_pow q in comp mat_T (comp M M)
  end.

Lemma app_basis (f : N -> N) : (forall a b, f (N.lxor a b) = N.lxor (f a) (f b)) ->
  forall n k v, v < 2 ^ N.of_nat n ->
  app_from (map f (map (fun i => 2 ^ N.of_nat i) (seq k n))) v = f (v * 2 ^ N.of_nat k).
Proof.
  intros Hf. assert (F0 : f 0 = 0) by (specialize (Hf 0 0); rewrite !N.lxor_nilpotent in Hf; exact Hf).
  induction n as [|n IH]; intros k v Hv.
  - cbn in Hv. assert (v = 0) by lia. subst. cbn. now rewrite F0.
  - cbn [seq map app_from]. rewrite IH.
    2:{ rewrite Nat2N.inj_succ, N.pow_succ_r' in Hv. apply N.div_lt_upper_bound; lia. }
    rewrite Nat2N.inj_succ, N.pow_succ_r'.
    replace (v / 2 * (2 * 2 ^ N.of_nat k)) with (2 * (v / 2) * 2 ^ N.of_nat k) by lia.
    replace (if N.testbit v 0 then f (2 ^ N.of_nat k) else 0) with (f (N.b2n (N.testbit v 0) * 2 ^ N.of_nat k)).
    + rewrite <- Hf, <- mul_pow_lxor, <- split_bit. reflexivity.
    + destruct (N.testbit v 0); cbn [N.b2n]; [now rewrite N.mul_1_l|now rewrite N.mul_0_l].
Qed.
Definition linear (f : N -> N) := forall a b, f (N.lxor a b) = N.lxor (f a) (f b).
Definition represents (M : list N) (f : N -> N) : Prop := M = map f basis.
Lemma represents_app M f v : linear f -> represents M f -> v < 2 ^ 32 -> app_from M v = f v.
Proof. intros Hf -> Hv. unfold basis. rewrite (app_basis f Hf) by exact Hv. now rewrite N.mul_1_r. Qed.
Lemma basis_lt v : In v basis -> v < 2 ^ 32.
Proof.
  unfold basis. intros H. apply in_map_iff in H as (i & <- & Hi). apply in_seq in Hi.
  apply N.pow_lt_mono_r; lia.
Qed.
Lemma represents_comp M1 M2 f g : linear f -> (forall v, v < 2 ^ 32 -> g v < 2 ^ 32) ->
  represents M1 f -> represents M2 g -> represents (comp M1 M2) (fun v => f (g v)).
Proof.
  intros Hf Hg H1 ->. unfold represents, comp. rewrite map_map. apply map_ext_in. intros v Hv.
  apply represents_app; auto. apply Hg, basis_lt, Hv.
Qed.

Lemma NiterT_lxor n : linear (N.iter n T).
Proof. intros a b. rewrite !N2Nat.inj_iter. apply iterT_lxor. Qed.
Lemma NiterT_lt n v : v < 2 ^ 32 -> N.iter n T v < 2 ^ 32.
Proof. rewrite N2Nat.inj_iter. apply iterT_lt. Qed.

Lemma represents_ext M f g : (forall v, f v = g v) -> represents M f -> represents M g.
Proof. intros E ->. unfold represents. apply map_ext, E. Qed.
Lemma mat_pow_ok p : represents (mat_pow p) (N.iter (Npos p) T).
Proof.
  induction p as [p IH|p IH|].
  - cbn [mat_pow]. apply represents_ext with (f := fun v => T (N.iter (Npos p) T (N.iter (Npos p) T v))).
    + intros v. rewrite <- N.iter_add. rewrite <- N.iter_succ. f_equal. lia.
    + apply (represents_comp mat_T (comp (mat_pow p) (mat_pow p)) T (fun v => N.iter (Npos p) T (N.iter (Npos p) T v))).
      * exact T_lxor.
      * intros v Hv. apply NiterT_lt, NiterT_lt, Hv.
      * reflexivity.
      * apply represents_comp; auto using NiterT_lxor, NiterT_lt.
  - cbn [mat_pow]. apply represents_ext with (f := fun v => N.iter (Npos p) T (N.iter (Npos p) T v)).
    + intros v. rewrite <- N.iter_add. f_equal. lia.
    + apply represents_comp; auto using NiterT_lxor, NiterT_lt.
  - reflexivity.
Qed.
Lemma iter_by_matrix p v : v < 2 ^ 32 -> N.iter (Npos p) T v = app_from (mat_pow p) v.
Proof. intros H. symmetry. apply represents_app; [apply NiterT_lxor|apply mat_pow_ok|exact H]. Qed.

(** Periods of the word 1. *)
Definition per (n : N) : Prop := N.iter n T 1 = 1.
Lemma per_mul a q : per a -> per (a * q).
Proof.
  intros H. induction q as [|q IH] using N.peano_ind; [rewrite N.mul_0_r; reflexivity|].
  rewrite N.mul_succ_r. unfold per. rewrite N.iter_add, H. exact IH.
Qed.
Lemma per_mod a b : per a -> per b -> per (a mod b).
Proof.
  intros Ha Hb. destruct (N.eq_dec b 0) as [->|Hb0]; [destruct a; exact Ha|].
  assert (E : N.iter (a mod b + b * (a / b)) T 1 = 1).
  { rewrite N.add_comm, <- N.div_mod by exact Hb0. exact Ha. }
  rewrite N.iter_add, (per_mul b (a / b) Hb) in E. exact E.
Qed.
Lemma per_gcd : forall b a, per a -> per b -> per (N.gcd a b).
Proof.
  induction b as [b IH] using (well_founded_induction N.lt_wf_0). intros a Ha Hb.
  destruct (N.eq_dec b 0) as [->|Hb0]; [rewrite N.gcd_0_r; exact Ha|].
  rewrite N.gcd_comm, <- N.gcd_mod by exact Hb0. rewrite N.gcd_comm. apply IH; [apply N.mod_upper_bound, Hb0|exact Hb|].
  apply per_mod; assumption.
Qed.

Definition full : N := 4294967295.
Lemma per_full : per full.
Proof. unfold per, full. rewrite iter_by_matrix by reflexivity. vm_compute. reflexivity. Qed.
Lemma not_per p : app_from (mat_pow p) 1 <> 1 -> ~ per (Npos p).
Proof. intros H E. apply H. rewrite <- iter_by_matrix by reflexivity. exact E. Qed.

Fixpoint coprime_from (fuel : nat) (z p : Z) : bool :=
  match fuel with O => true | S f => (Z.gcd z p =? 1)%Z && coprime_from f (z + 1) p end.
Lemma coprime_from_ok fuel : forall z p n, coprime_from fuel z p = true -> (z <= n < z + Z.of_nat fuel)%Z -> Z.gcd n p = 1%Z.
Proof.
  induction fuel as [|f IH]; intros z p n H Hn; [lia|]. cbn [coprime_from] in H. apply andb_prop in H as [H1 H2].
  destruct (Z.eq_dec n z) as [->|Hne]; [now apply Z.eqb_eq|]. apply (IH (z + 1)%Z); [exact H2|lia].
Qed.
Definition prime_test (p : Z) : bool := coprime_from (Z.to_nat (p - 1)) 1 p.
Lemma prime_test_ok p : (1 < p)%Z -> prime_test p = true -> prime p.
Proof.
  intros Hp H. constructor; [exact Hp|]. intros n Hn. apply Zgcd_1_rel_prime.
  apply (coprime_from_ok _ _ _ _ H). lia.
Qed.

Lemma factor_of_full k : (1 < k)%Z -> (k | 4294967295)%Z ->
  (3 | k)%Z \/ (5 | k)%Z \/ (17 | k)%Z \/ (257 | k)%Z \/ (65537 | k)%Z.
Proof.
  intros Hk Hd.
  assert (P : forall p, (1 < p)%Z -> prime_test p = true -> (p | k)%Z \/ rel_prime k p).
  { intros p Hp Ht. destruct (Zdivide_dec p k) as [D|D]; [left; exact D|right].
    apply rel_prime_sym, prime_rel_prime; [apply prime_test_ok; assumption|exact D]. }
  assert (P3 := P 3%Z ltac:(lia) eq_refl). assert (P5 := P 5%Z ltac:(lia) eq_refl).
  assert (P17 := P 17%Z ltac:(lia) eq_refl).
  assert (P257 := P 257%Z ltac:(lia) ltac:(vm_compute; reflexivity)).
  assert (P65537 := P 65537%Z ltac:(lia) ltac:(vm_compute; reflexivity)).
  clear P.
  destruct P3 as [|R3]; [tauto|]. destruct P5 as [|R5]; [tauto|]. destruct P17 as [|R17]; [tauto|].
  destruct P257 as [|R257]; [tauto|]. destruct P65537 as [|R65537]; [tauto|]. exfalso.
  assert (R : rel_prime k (3 * (5 * (17 * (257 * 65537))))).
  { repeat (apply rel_prime_mult; [assumption|]). assumption. }
  change (3 * (5 * (17 * (257 * 65537))))%Z with 4294967295%Z in R.
  destruct R as [_ _ R]. specialize (R k (Z.divide_refl k) Hd). apply Z.divide_1_r in R. lia.
Qed.

Lemma period_exact d : 0 < d < full -> ~ per d.
Proof.
  intros Hd Hp. pose proof (per_gcd full d Hp per_full) as Hg. set (g := N.gcd d full) in *.
  destruct (N.gcd_divide_r d full) as [k Ek]. fold g in Ek.
  destruct (N.gcd_divide_l d full) as [l El]. fold g in El.
  assert (Hk : 1 < k).
  { destruct (N.lt_ge_cases 1 k) as [L|L]; [exact L|]. exfalso.
    assert (l <> 0) by (intros ->; lia). assert (g <= d) by nia. nia. }
  assert (Q : forall p, (0 < p) -> (Z.of_N p | Z.of_N k)%Z -> p * (full / p) = full -> per (full / p)).
  { intros p Hp0 [q Eq] Ep. assert (E : full / p = g * Z.to_N q).
    { assert (Ek2 : k = Z.to_N q * p) by nia. apply N.mul_cancel_l with (p := p); [lia|]. rewrite Ep, Ek, Ek2. lia. }
    rewrite E. apply per_mul, Hg. }
  assert (D : (Z.of_N k | 4294967295)%Z).
  { exists (Z.of_N g). change 4294967295%Z with (Z.of_N full). rewrite Ek. lia. }
  destruct (factor_of_full (Z.of_N k) ltac:(lia) D) as [F|[F|[F|[F|F]]]].
  - apply (Q 3) in F; [|lia|reflexivity]. revert F. apply (not_per 1431655765). vm_compute. discriminate.
  - apply (Q 5) in F; [|lia|reflexivity]. revert F. apply (not_per 858993459). vm_compute. discriminate.
  - apply (Q 17) in F; [|lia|reflexivity]. revert F. apply (not_per 252645135). vm_compute. discriminate.
  - apply (Q 257) in F; [|lia|reflexivity]. revert F. apply (not_per 16711935). vm_compute. discriminate.
  - apply (Q 65537) in F; [|lia|reflexivity]. revert F. apply (not_per 65535). vm_compute. discriminate.
Qed.

(** C32: two wrong bits *)
Lemma xor_list_nth xs : forall ys i, length xs = length ys -> (i < length xs)%nat ->
  nth i (map (fun p => xorb (fst p) (snd p)) (combine xs ys)) false = xorb (nth i xs false) (nth i ys false).
Proof.
  induction xs as [|x xs IH]; intros [|y ys] i L Hi; cbn [length] in *; try lia.
  destruct i as [|i]; [reflexivity|]. cbn [combine map nth]. apply IH; lia.
Qed.
Lemma nth_repeat_false n i : nth i (repeat false n) false = false.
Proof. revert i. induction n; intros [|i]; cbn; auto. Qed.

Lemma two_bits_shape xs ys i j : (i < j < length xs)%nat -> differ_at [i; j] xs ys ->
  map (fun p => xorb (fst p) (snd p)) (combine xs ys)
   = repeat false i ++ [true] ++ repeat false (j - i - 1) ++ [true] ++ repeat false (length xs - j - 1).
Proof.
  intros Hij [L D]. set (z := map _ _).
  assert (Lz : length z = length xs) by (unfold z; rewrite map_length, combine_length; lia).
  apply nth_ext with (d := false) (d' := false).
  - rewrite Lz, !app_length, !repeat_length. cbn [length]. lia.
  - intros k Hk. rewrite Lz in Hk. unfold z. rewrite xor_list_nth by assumption.
    assert (E : xorb (nth k xs false) (nth k ys false) = ((k =? i) || (k =? j))%nat).
    { specialize (D k Hk). cbn [In] in D.
      destruct (Nat.eqb_spec k i) as [->|N1]; [|destruct (Nat.eqb_spec k j) as [->|N2]]; cbn [orb].
      - destruct (nth i xs false), (nth i ys false); try reflexivity; exfalso; apply D; auto.
      - destruct (nth j xs false), (nth j ys false); try reflexivity; exfalso; apply D; auto.
      - destruct (nth k xs false), (nth k ys false); try reflexivity; exfalso;
        destruct D as [D _]; (destruct D as [|[|[]]]; [discriminate|lia|lia]). }
    rewrite E. clear E D z Lz.
    destruct (Nat.lt_ge_cases k i) as [C|C].
    { rewrite app_nth1 by (rewrite repeat_length; lia). rewrite nth_repeat_false. lia. }
    rewrite app_nth2 by (rewrite repeat_length; lia). rewrite repeat_length.
    destruct (Nat.eq_dec k i) as [->|C2]; [rewrite Nat.sub_diag; cbn; lia|].
    rewrite app_nth2 by (cbn [length]; lia). cbn [length].
    destruct (Nat.lt_ge_cases k j) as [C3|C3].
    { rewrite app_nth1 by (rewrite repeat_length; lia). rewrite nth_repeat_false. lia. }
    rewrite app_nth2 by (rewrite repeat_length; lia). rewrite repeat_length.
    destruct (Nat.eq_dec k j) as [->|C4].
    { replace (j - i - 1 - (j - i - 1))%nat with 0%nat by lia. cbn. lia. }
    rewrite app_nth2 by (cbn [length]; lia). rewrite nth_repeat_false. lia.
Qed.

Lemma two_bits_detected c a b i j : c < 2 ^ 32 -> bytes_ok a -> bytes_ok b ->
  (i < j < length (bits a))%nat -> N.of_nat (j - i) < 2 ^ 32 - 1 -> differ_at [i; j] (bits a) (bits b) ->
  crc32 c (Some a) <> crc32 c (Some b).
Proof.
  intros Hc Ha Hb Hij Hd HD E. apply crc32_eq_feed in E; try assumption.
  apply N.lxor_eq_0_iff in E. rewrite feed_lxor in E by apply HD. rewrite N.lxor_nilpotent in E.
  rewrite (two_bits_shape _ _ i j Hij HD) in E. rewrite !feed_app, !feed_zeros in E.
  replace (Nat.iter i T 0) with 0 in E by (clear; induction i; [reflexivity|rewrite iter_S, <- IHi; reflexivity]).
  set (n := (j - i - 1)%nat) in *.
  assert (F1 : forall s, feed s [true] = T (N.lxor s 1)) by reflexivity. rewrite !F1, N.lxor_0_l in E.
  rewrite <- (iter_S_r T n 1) in E.
  apply iterT_inj0 in E; [|apply T_lt, lxor_lt; [apply iterT_lt|]; reflexivity].
  apply T_inj0 in E; [|apply lxor_lt; [apply iterT_lt|]; reflexivity].
  apply N.lxor_eq in E. apply (period_exact (N.of_nat (S n))).
  - unfold full. change (2 ^ 32 - 1) with 4294967295 in Hd. lia.
  - unfold per. rewrite N2Nat.inj_iter, Nat2N.id. exact E.
Qed.

From Coq Require Import List ZArith Bool Lia.
From Verif Require Import Base AllocModel AllocSpec.
Import ListNotations.
Local Open Scope Z_scope.

(** ** Alignment *)
Lemma wrap_small x : 0 <= x < 2 ^ 64 -> wrap x = x.
Proof. intros H. unfold wrap. apply Z.mod_small. exact H. Qed.

Lemma align_ldiff A u : 1 <= A -> 0 <= u -> u + A - 1 < 2 ^ 64 -> align A u = Z.ldiff (u + (A - 1)) (A - 1).
Proof.
  intros HA Hu H. unfold align. rewrite (wrap_small (u + (A - 1))) by lia. unfold wrap.
  apply Z.bits_inj'. intros i Hi. rewrite Z.land_spec, Z.ldiff_spec.
  destruct (Z_lt_dec i 64) as [L|L].
  - rewrite Z.mod_pow2_bits_low by lia. rewrite Z.lnot_spec by lia. reflexivity.
  - rewrite Z.mod_pow2_bits_high by lia. rewrite andb_false_r.
    assert (E : Z.testbit (u + (A - 1)) i = false).
    { destruct (Z.eq_dec (u + (A - 1)) 0) as [->|N]; [apply Z.bits_0|]. apply Z.bits_above_log2; [lia|].
      apply Z.log2_lt_pow2; [lia|]. apply Z.lt_le_trans with (2 ^ 64); [lia|]. apply Z.pow_le_mono_r; lia. }
    rewrite E. reflexivity.
Qed.
Lemma ldiff_split a b : Z.ldiff a b + Z.land a b = a.
Proof.
  rewrite Z.add_nocarry_lxor.
  - rewrite Z.lxor_lor; [apply Z.lor_ldiff_and|]. apply Z.bits_inj'. intros i Hi. rewrite !Z.land_spec, Z.ldiff_spec, Z.bits_0.
    destruct (Z.testbit a i), (Z.testbit b i); reflexivity.
  - apply Z.bits_inj'. intros i Hi. rewrite !Z.land_spec, Z.ldiff_spec, Z.bits_0.
    destruct (Z.testbit a i), (Z.testbit b i); reflexivity.
Qed.
Lemma land_le a m : 0 <= m -> 0 <= Z.land a m <= m.
Proof.
  intros H. split; [apply Z.land_nonneg; auto|].
  assert (S := ldiff_split m a). rewrite Z.land_comm. assert (0 <= Z.ldiff m a) by (apply Z.ldiff_nonneg; auto). lia.
Qed.
Lemma align_range A u : 1 <= A -> 0 <= u -> u + A - 1 < 2 ^ 64 -> u <= align A u <= u + (A - 1).
Proof.
  intros HA Hu H. rewrite align_ldiff by assumption. assert (S := ldiff_split (u + (A - 1)) (A - 1)).
  assert (L := land_le (u + (A - 1)) (A - 1) ltac:(lia)). lia.
Qed.
Lemma align_pow2 k u : 0 <= k -> 0 <= u -> u + 2 ^ k - 1 < 2 ^ 64 -> (2 ^ k | align (2 ^ k) u).
Proof.
  intros Hk Hu H. assert (P : 0 < 2 ^ k) by (apply Z.pow_pos_nonneg; lia). rewrite align_ldiff by lia.
  replace (2 ^ k - 1) with (Z.ones k) at 2 by (rewrite Z.ones_equiv; lia).
  rewrite Z.ldiff_ones_r by assumption. rewrite Z.shiftl_mul_pow2 by assumption. apply Z.divide_factor_r.
Qed.

(** A number that is not a power of two has a gap in the bits of its predecessor. *)
Lemma gap (m : Z) : 0 < m -> (exists k, 0 <= k /\ m = 2 ^ k - 1) \/ exists j, 0 <= j /\ Z.testbit m j = false /\ 2 ^ j <= m.
Proof.
  intros H. pose (k := Z.log2 m + 1). assert (K : 0 <= k) by (unfold k; assert (G := Z.log2_nonneg m); lia).
  destruct (forallb (Z.testbit m) (map Z.of_nat (seq 0 (Z.to_nat k)))) eqn:E.
  - left. exists k. split; [assumption|]. replace (2 ^ k - 1) with (Z.ones k) by (rewrite Z.ones_equiv; lia).
    apply Z.bits_inj'. intros i Hi. destruct (Z_lt_dec i k) as [L|L].
    + rewrite Z.ones_spec_low by lia. rewrite forallb_forall in E. apply E. apply in_map_iff. exists (Z.to_nat i). split; [lia|]. apply in_seq. lia.
    + rewrite Z.ones_spec_high by lia. apply Z.bits_above_log2; [lia|]. unfold k in L. lia.
  - right. assert (X : exists j, In j (map Z.of_nat (seq 0 (Z.to_nat k))) /\ Z.testbit m j = false).
    { clear - E. revert E. generalize (map Z.of_nat (seq 0 (Z.to_nat k))). induction l as [|a l IH]; cbn; [discriminate|].
      destruct (Z.testbit m a) eqn:T; cbn; intros E; [destruct (IH E) as (j & I & J); exists j; auto|exists a; auto]. }
    destruct X as (j & I & T). apply in_map_iff in I. destruct I as (i & <- & I). apply in_seq in I. exists (Z.of_nat i).
    split; [lia|]. split; [assumption|]. destruct (Z.log2_spec m H) as [L _]. apply Z.le_trans with (2 ^ Z.log2 m); [|assumption].
    apply Z.pow_le_mono_r; unfold k in I; lia.
Qed.
(** Every alignment that is not a power of two is missed by some address. *)
Lemma misaligned A : 1 < A < 2 ^ 31 -> (forall k, 0 <= k -> A <> 2 ^ k) -> exists u, 0 < u /\ u < 2 ^ 34 /\ ~ (A | align A u).
Proof.
  intros HA NP. destruct (gap (A - 1)) as [(k & K & E)|(j & J & T & L)]; [lia|exfalso; apply (NP k K); lia|].
  assert (J31 : j < 31).
  { apply (Z.pow_lt_mono_r_iff 2); [lia|lia|]. lia. }
  assert (P : 0 < 2 ^ j) by (apply Z.pow_pos_nonneg; lia).
  assert (X : forall t, 31 <= t <= 33 -> align A (2 ^ t + 2 ^ j - (A - 1)) = 2 ^ t + 2 ^ j).
  { intros t Ht. assert (B : 2 ^ 31 <= 2 ^ t <= 2 ^ 33) by (split; apply Z.pow_le_mono_r; lia).
    change (2 ^ 31) with 2147483648 in *. change (2 ^ 33) with 8589934592 in *.
    assert (2 ^ j <= 2147483648) by (change 2147483648 with (2 ^ 31); apply Z.pow_le_mono_r; lia).
    rewrite align_ldiff; [|lia|lia|change (2 ^ 64) with 18446744073709551616; lia].
    replace (2 ^ t + 2 ^ j - (A - 1) + (A - 1)) with (2 ^ t + 2 ^ j) by lia.
    assert (S := ldiff_split (2 ^ t + 2 ^ j) (A - 1)).
    assert (Z0 : Z.land (2 ^ t + 2 ^ j) (A - 1) = 0); [|lia].
    apply Z.bits_inj'. intros i Hi. rewrite Z.land_spec, Z.bits_0.
    rewrite Z.add_nocarry_lxor.
    - rewrite Z.lxor_spec, !Z.pow2_bits_eqb by lia. destruct (Z.eqb_spec t i) as [->|N1].
      + rewrite (Z.bits_above_log2 (A - 1)); [apply andb_false_r|lia|]. apply Z.log2_lt_pow2; [lia|]. lia.
      + destruct (Z.eqb_spec j i) as [->|N2]; [rewrite T; reflexivity|reflexivity].
    - apply Z.bits_inj'. intros q Hq. rewrite Z.land_spec, Z.bits_0, !Z.pow2_bits_eqb by lia.
      destruct (Z.eqb_spec t q), (Z.eqb_spec j q); try reflexivity. lia. }
  assert (NZ : ~ (A | 2 ^ j)) by (intros D; apply Z.divide_pos_le in D; lia).
  assert (BJ : 2 ^ j <= 2 ^ 30) by (apply Z.pow_le_mono_r; lia).
  change (2 ^ 30) with 1073741824 in *. change (2 ^ 31) with 2147483648 in *.
  destruct (Znumtheory.Zdivide_dec A (align A (2 ^ 32 + 2 ^ j - (A - 1)))) as [D|D].
  - exists (2 ^ 33 + 2 ^ j - (A - 1)). change (2 ^ 33) with 8589934592. change (2 ^ 34) with 17179869184. split; [lia|]. split; [lia|].
    intros D'. rewrite X in D by lia. change 8589934592 with (2 ^ 33) in D'. rewrite X in D' by lia.
    apply NZ. assert (E : 2 ^ j = 2 * (2 ^ 32 + 2 ^ j) - (2 ^ 33 + 2 ^ j)) by (change (2 ^ 33) with (2 * 2 ^ 32); lia).
    rewrite E. apply Z.divide_sub_r; [apply Z.divide_mul_r; assumption|assumption].
  - exists (2 ^ 32 + 2 ^ j - (A - 1)). change (2 ^ 32) with 4294967296 in *. change (2 ^ 34) with 17179869184. split; [lia|]. split; [lia|]. assumption.
Qed.

(** ** Tables *)
Lemma find_none p m : find_addr p m = None <-> ~ In p (map fst m).
Proof.
  induction m as [|[q u] m IH]; cbn; [tauto|]. destruct (Z.eqb_spec q p) as [->|N]; [split; [discriminate|tauto]|]. rewrite IH. intuition.
Qed.
Lemma give_back_ok u l : In u (map fst l) -> exists r, give_back u l = Val r.
Proof.
  induction l as [|[v b] l IH]; cbn; [tauto|]. intros [->|H]; [rewrite Z.eqb_refl; eauto|].
  destruct (v =? u); [eauto|]. destruct (IH H) as [r ->]. cbn. eauto.
Qed.

(** A block of the user and the memory it is in: (address, size, address in the system). *)
Definition entry := (Z * Z * Z)%type.
Definition e_live (e : entry) : Z * Z := (fst (fst e), snd (fst e)).
Definition e_raw (A : Z) (e : entry) : Z * Z := (snd e, snd (fst e) + A).
Definition e_map (e : entry) : Z * Z := (fst (fst e), snd e).
Definition nonzero (q : Z * Z) : bool := negb (fst q =? 0).

Definition e_ok (A : Z) (e : entry) : Prop :=
  0 <= snd (fst e) /\ 0 < snd e /\ snd e + snd (fst e) + A < 2 ^ 64 /\ fst (fst e) = align A (snd e).
Record Inv (K : kind) (A : Z) (es : list entry) (h : heap) : Prop := mkInv {
  i_raw : raw h = map (e_raw A) es;
  i_table : filter nonzero (table h) = map e_map es;
  i_default : K = Default -> forallb nonzero (table h) = true;
  i_null : forall u, find_addr 0 (table h) = Some u -> u = 0;
  i_null_nodup : ~ In 0 (map fst (erase_addr 0 (table h)));
  i_ok : Forall (e_ok A) es;
  i_apart : ForallOrdPairs apart (map (e_raw A) es) }.

Lemma inv_start K A : Inv K A [] start.
Proof. constructor; cbn; try reflexivity; try tauto; try discriminate; constructor. Qed.

Lemma e_within A e : 1 <= A -> e_ok A e -> within (e_live e) (e_raw A e) /\ snd e <= fst (e_live e) < snd e + A.
Proof.
  intros HA (N & P & L & E). destruct e as [[p n] u]. cbn in *. assert (R := align_range A u HA ltac:(lia) ltac:(lia)). rewrite <- E in R.
  unfold within. cbn. lia.
Qed.
Lemma inv_live_apart K A es h : 1 <= A -> Inv K A es h -> ForallOrdPairs apart (map e_live es).
Proof.
  intros HA [_ _ _ _ _ OK AP]. induction es as [|e es IH]; cbn in *; [constructor|]. inversion OK; subst. inversion AP; subst.
  constructor; [|auto]. apply Forall_forall. intros q I. apply in_map_iff in I. destruct I as (f & <- & F).
  assert (W1 := e_within A e HA ltac:(assumption)).
  assert (W2 : within (e_live f) (e_raw A f) /\ snd f <= fst (e_live f) < snd f + A).
  { apply e_within; [assumption|]. match goal with H : Forall (e_ok A) es |- _ => rewrite Forall_forall in H; apply H; assumption end. }
  match goal with H : Forall (apart (e_raw A e)) _ |- _ => rewrite Forall_forall in H; specialize (H (e_raw A f) (in_map _ _ _ F)); rename H into AA end.
  unfold within, apart in *. cbn in *. lia.
Qed.
(** Distinct blocks have distinct addresses, in the table and in the system. *)
Lemma inv_addr_neq K A e es h : 1 <= A -> Inv K A (e :: es) h -> Forall (fun f => fst (e_live f) <> fst (e_live e) /\ snd f <> snd e) es.
Proof.
  intros HA [_ _ _ _ _ OK AP]. inversion OK; subst. cbn in AP. inversion AP; subst. apply Forall_forall. intros f F.
  assert (W1 := e_within A e HA ltac:(assumption)).
  assert (F2 : e_ok A f) by (match goal with H : Forall (e_ok A) es |- _ => rewrite Forall_forall in H; apply H; assumption end).
  assert (W2 := e_within A f HA F2).
  match goal with H : Forall (apart (e_raw A e)) _ |- _ => rewrite Forall_forall in H; specialize (H (e_raw A f) (in_map _ _ _ F)); rename H into AA end.
  destruct F2 as (F2 & _). match goal with H : e_ok A e |- _ => destruct H as (H & _) end.
  unfold within, apart in *. cbn in *. lia.
Qed.

Lemma find_filter p m : p <> 0 -> find_addr p (filter nonzero m) = find_addr p m.
Proof.
  intros N. induction m as [|[q u] m IH]; cbn [negb filter find_addr erase_addr fst]; [reflexivity|]. unfold nonzero at 1. cbn [fst].
  destruct (Z.eqb_spec q 0) as [->|Q]; cbn [negb filter find_addr erase_addr fst]; [destruct (Z.eqb_spec 0 p); [congruence|assumption]|]. destruct (q =? p); auto.
Qed.
Lemma erase_filter p m : p <> 0 -> filter nonzero (erase_addr p m) = erase_addr p (filter nonzero m).
Proof.
  intros N. induction m as [|[q u] m IH]; cbn [negb filter find_addr erase_addr fst]; [reflexivity|]. unfold nonzero at 2. cbn [fst].
  destruct (Z.eqb_spec q 0) as [->|Q]; cbn [negb filter find_addr erase_addr fst].
  - destruct (Z.eqb_spec 0 p); [congruence|]. cbn [negb filter find_addr erase_addr fst]. assumption.
  - destruct (q =? p); [reflexivity|]. cbn [negb filter find_addr erase_addr fst]. unfold nonzero at 1. cbn [fst]. apply Z.eqb_neq in Q. rewrite Q. cbn [negb filter find_addr erase_addr fst]. congruence.
Qed.
Lemma erase_filter0 m : filter nonzero (erase_addr 0 m) = filter nonzero m.
Proof.
  induction m as [|[q u] m IH]; cbn [negb filter find_addr erase_addr fst]; [reflexivity|]. unfold nonzero at 2. cbn [fst]. destruct (Z.eqb_spec q 0) as [->|Q]; cbn [negb filter find_addr erase_addr fst]; [reflexivity|].
  unfold nonzero at 1. cbn [fst]. apply Z.eqb_neq in Q. rewrite Q. cbn [negb filter find_addr erase_addr fst]. congruence.
Qed.
Lemma erase_comm p m : p <> 0 -> erase_addr 0 (erase_addr p m) = erase_addr p (erase_addr 0 m).
Proof.
  intros N. induction m as [|[q u] m IH]; cbn [negb filter find_addr erase_addr fst]; [reflexivity|]. destruct (Z.eqb_spec q 0) as [->|Q].
  - destruct (Z.eqb_spec 0 p); [congruence|]. cbn [negb filter find_addr erase_addr fst]. reflexivity.
  - destruct (Z.eqb_spec q p) as [->|P]; cbn [negb filter find_addr erase_addr fst]; [rewrite Z.eqb_refl|rewrite (proj2 (Z.eqb_neq _ _) P), (proj2 (Z.eqb_neq _ _) Q)]; congruence.
Qed.
Lemma erase_in p q m : In q (map fst (erase_addr p m)) -> In q (map fst m).
Proof. induction m as [|[r u] m IH]; cbn; [tauto|]. destruct (r =? p); cbn; tauto. Qed.
Lemma find_erase p m : p <> 0 -> find_addr 0 (erase_addr p m) = find_addr 0 m.
Proof.
  intros N. induction m as [|[q u] m IH]; cbn; [reflexivity|]. destruct (Z.eqb_spec q p) as [->|P]; cbn.
  - destruct (Z.eqb_spec p 0); [congruence|reflexivity].
  - destruct (q =? 0); auto.
Qed.
Lemma erase_absent p m : ~ In p (map fst m) -> erase_addr p m = m.
Proof.
  induction m as [|[q u] m IH]; cbn; [reflexivity|]. intros N. destruct (Z.eqb_spec q p); [exfalso; tauto|]. f_equal. auto.
Qed.
Lemma erase_forallb (f : Z * Z -> bool) p m : forallb f m = true -> forallb f (erase_addr p m) = true.
Proof.
  induction m as [|[q u] m IH]; cbn; [auto|]. intros H. apply andb_prop in H. destruct H as [H1 H2].
  destruct (q =? p); [assumption|]. cbn. rewrite H1. auto.
Qed.

(** Removing the block at an address. *)
Fixpoint remove_entry (p : Z) (es : list entry) : list entry :=
  match es with [] => [] | e :: es => if fst (e_live e) =? p then es else e :: remove_entry p es end.
Lemma remove_live p es : map e_live (remove_entry p es) = drop p (map e_live es).
Proof. induction es as [|[[q n] u] es IH]; cbn; [reflexivity|]. destruct (q =? p); cbn; [reflexivity|]. f_equal. assumption. Qed.
Lemma remove_map p es : map e_map (remove_entry p es) = erase_addr p (map e_map es).
Proof. induction es as [|[[q n] u] es IH]; cbn; [reflexivity|]. destruct (q =? p); cbn; [reflexivity|]. f_equal. assumption. Qed.
Lemma remove_in p es e : In e (remove_entry p es) -> In e es.
Proof. induction es as [|f es IH]; cbn; [tauto|]. destruct (_ =? p); cbn; tauto. Qed.
Lemma remove_raw A p es u : Forall (e_ok A) es -> 1 <= A -> ForallOrdPairs apart (map (e_raw A) es) ->
  find_addr p (map e_map es) = Some u -> give_back u (map (e_raw A) es) = Val (map (e_raw A) (remove_entry p es)) /\ 0 < u.
Proof.
  intros OK HA AP. induction es as [|[[q n] v] es IH]; cbn; [discriminate|]. destruct (Z.eqb_spec q p) as [->|N].
  - intros E. injection E as <-. rewrite Z.eqb_refl. inversion OK; subst. split; [reflexivity|].
    match goal with H : e_ok A _ |- _ => destruct H as (_ & H & _); exact H end.
  - intros E. inversion OK; subst. cbn in AP. inversion AP; subst. destruct (IH ltac:(assumption) ltac:(assumption) E) as [G P]. split; [|assumption].
    assert (NE : v <> u).
    { intros ->. assert (X : In (p, u) (map e_map es)).
      { clear - E. induction (map e_map es) as [|[q u'] m IH]; cbn in *; [discriminate|]. destruct (Z.eqb_spec q p) as [->|]; [left; congruence|right; auto]. }
      apply in_map_iff in X. destruct X as ([[p' m] u'] & X & F). unfold e_map in X. cbn in X. injection X as -> ->.
      match goal with H : Forall (apart _) _ |- _ => rewrite Forall_forall in H; specialize (H (e_raw A (p, m, u)) (in_map _ _ _ F)); unfold apart, e_raw in H; cbn in H end.
      match goal with H : Forall (e_ok A) es |- _ => rewrite Forall_forall in H; specialize (H _ F); destruct H as (? & _) end.
      match goal with H : e_ok A (q, n, u) |- _ => destruct H as (? & _) end. cbn in *. lia. }
    apply Z.eqb_neq in NE. unfold e_raw at 1. cbn [fst snd]. rewrite NE, G. reflexivity.
Qed.
Lemma remove_apart A p es : ForallOrdPairs apart (map (e_raw A) es) -> ForallOrdPairs apart (map (e_raw A) (remove_entry p es)).
Proof.
  induction es as [|e es IH]; cbn; [auto|]. intros H. inversion H; subst. destruct (_ =? p); [assumption|]. cbn. constructor; [|auto].
  rewrite Forall_forall in *. intros x I. apply in_map_iff in I. destruct I as (f & <- & F).
  match goal with H : forall x, In x _ -> apart _ x |- _ => apply H end. apply in_map. apply remove_in with p. assumption.
Qed.

(** ** Each call *)
Lemma erase0_filter m : ~ In 0 (map fst (erase_addr 0 m)) -> find_addr 0 m = None -> ~ In 0 (map fst m).
Proof. intros _ F. apply find_none. assumption. Qed.

Lemma add_ok K A es h n u : 1 <= A < 2 ^ 31 -> Inv K A es h -> 0 <= n -> n + A < 2 ^ 64 ->
  answer_ok (bytes_to_alloc A n) (raw h) (Some u) ->
  find_addr (align A u) (table h) = None /\ align A u <> 0 /\
  Inv K A ((align A u, n, u) :: es) (mkHeap ((u, bytes_to_alloc A n) :: raw h) ((align A u, u) :: table h)).
Proof.
  intros HA I N L (U & L2 & AP). destruct I as [R T D NU NN OK AA].
  assert (BY : bytes_to_alloc A n = n + A) by (apply wrap_small; lia). rewrite BY in *.
  assert (AR := align_range A u ltac:(lia) ltac:(lia) ltac:(lia)).
  assert (NZ : align A u <> 0) by lia.
  assert (FN : find_addr (align A u) (table h) = None).
  { rewrite <- find_filter by assumption. rewrite T. apply find_none. intros X. apply in_map_iff in X. destruct X as (q & E & X).
    apply in_map_iff in X. destruct X as (f & <- & F). rewrite Forall_forall in OK. specialize (OK _ F).
    assert (W := e_within A f ltac:(lia) OK). rewrite R in AP. rewrite Forall_forall in AP. specialize (AP (e_raw A f) (in_map _ _ _ F)).
    destruct OK as (F0 & _). unfold apart in AP. cbn in *. unfold within in W. cbn in W. lia. }
  split; [assumption|]. split; [assumption|]. constructor; cbn [raw table map].
  - rewrite R. reflexivity.
  - cbn [filter]. unfold nonzero at 1. cbn [fst]. apply Z.eqb_neq in NZ. rewrite NZ. cbn [negb]. rewrite T. reflexivity.
  - intros ->. cbn [forallb]. unfold nonzero at 1. cbn [fst]. apply Z.eqb_neq in NZ. rewrite NZ. cbn. auto.
  - intros v. cbn [find_addr]. apply Z.eqb_neq in NZ. rewrite NZ. apply NU.
  - cbn [erase_addr]. apply Z.eqb_neq in NZ. rewrite NZ. cbn. apply Z.eqb_neq in NZ. intuition.
  - constructor; [|assumption]. repeat split; cbn; lia.
  - constructor; [|assumption]. rewrite R in AP. assumption.
Qed.

Lemma free_live K A es h p : 1 <= A -> Inv K A es h -> In p (map fst (map e_live es)) ->
  step K A (Free p) h = Val (mkHeap (map (e_raw A) (remove_entry p es)) (erase_addr p (table h)), Done) /\
  Inv K A (remove_entry p es) (mkHeap (map (e_raw A) (remove_entry p es)) (erase_addr p (table h))).
Proof.
  intros HA I IN. assert (I0 := I). destruct I as [R T D NU NN OK AA].
  assert (PZ : p <> 0).
  { apply in_map_iff in IN. destruct IN as (q & <- & X). apply in_map_iff in X. destruct X as (f & <- & F). rewrite Forall_forall in OK. specialize (OK _ F).
    assert (W := e_within A f HA OK). destruct OK as (_ & ? & _). lia. }
  destruct (find_addr p (table h)) as [u|] eqn:E.
  2:{ exfalso. rewrite <- find_filter, T in E by assumption. apply find_none in E. apply E. rewrite map_map in *. exact IN. }
  assert (E' := E). rewrite <- find_filter, T in E' by assumption. destruct (remove_raw A p es u OK HA AA E') as [G P].
  split.
  - destruct K; cbn [step]; unfold default_free, pool_free; rewrite E, R.
    + rewrite G. reflexivity.
    + destruct (Z.eqb_spec u 0); [lia|]. rewrite G. reflexivity.
  - constructor; cbn [raw table].
    + reflexivity.
    + rewrite erase_filter, T by assumption. symmetry. apply remove_map.
    + intros ->. apply erase_forallb. auto.
    + intros v. rewrite find_erase by assumption. apply NU.
    + rewrite erase_comm by assumption. intros X. apply NN. apply erase_in in X. assumption.
    + rewrite Forall_forall in *. intros e X. apply OK. apply remove_in in X. assumption.
    + apply remove_apart. assumption.
Qed.
Lemma free_unknown_default A es h p : Inv Default A es h -> ~ In p (map fst (map e_live es)) -> step Default A (Free p) h = Abort.
Proof.
  intros [R T D NU NN OK AA] N. cbn [step]. unfold default_free. destruct (find_addr p (table h)) eqn:E; [|reflexivity]. exfalso.
  assert (FT : filter nonzero (table h) = table h).
  { specialize (D eq_refl). clear - D. induction (table h) as [|a m IH]; cbn in *; [reflexivity|]. apply andb_prop in D. destruct D as [-> D]. f_equal. auto. }
  rewrite FT in T. apply N. rewrite map_map. change (fun x => fst (e_live x)) with (fun x => fst (e_map x)). rewrite <- map_map, <- T.
  clear - E. induction (table h) as [|[q u] m IH]; cbn in *; [discriminate|]. destruct (Z.eqb_spec q p); auto.
Qed.
Lemma free_unknown_pool A es h p : Inv Pool A es h -> ~ In p (map fst (map e_live es)) -> p <> 0 -> step Pool A (Free p) h = Val (h, Done).
Proof.
  intros [R T D NU NN OK AA] N PZ. cbn [step]. unfold pool_free.
  assert (E : find_addr p (table h) = None).
  { rewrite <- find_filter, T by assumption. apply find_none. rewrite map_map in *. exact N. }
  rewrite E. cbn [Z.eqb bind]. rewrite erase_absent by (apply find_none; assumption). destruct h; reflexivity.
Qed.
Lemma drop_absent p l : ~ In p (map fst l) -> drop p l = l.
Proof. induction l as [|[q n] l IH]; cbn; [reflexivity|]. intros N. destruct (Z.eqb_spec q p); [exfalso; tauto|]. f_equal. auto. Qed.

Lemma live_nonzero K A es h : 1 <= A -> Inv K A es h -> ~ In 0 (map fst (map e_live es)).
Proof.
  intros HA [_ _ _ _ _ OK _] IN. apply in_map_iff in IN. destruct IN as (q & E & X). apply in_map_iff in X. destruct X as (f & <- & F). rewrite Forall_forall in OK. specialize (OK _ F).
  assert (W := e_within A f HA OK). destruct OK as (_ & ? & _). lia.
Qed.

(** ** Histories of the default allocator *)
Lemma step_default A es h c : 1 <= A < 2 ^ 31 -> Inv Default A es h -> call_ok A c h ->
  (match c with Allocate n _ => n + A < 2 ^ 64 | Free _ => True end) ->
  match step Default A c h with
  | Val (h', r) => exists es', Inv Default A es' h' /\ map e_live es' = live1 c r (map e_live es)
  | Abort => exists p, c = Free p /\ ~ In p (map fst (map e_live es))
  | Undef => False
  end.
Proof.
  intros HA I OK SZ. destruct c as [n [u|]|p]; cbn [step].
  - destruct OK as [N AN]. destruct (add_ok Default A es h n u HA I N SZ AN) as (F & NZ & I'). unfold default_allocate. cbn [raw table]. rewrite F.
    eexists. split; [exact I'|]. cbn. apply Z.eqb_neq in NZ. rewrite NZ. reflexivity.
  - cbn. exists es. auto.
  - destruct (in_dec Z.eq_dec p (map fst (map e_live es))) as [IN|NI].
    + destruct (free_live Default A es h p ltac:(lia) I IN) as [E I']. cbn [step] in E. rewrite E. eexists. split; [exact I'|]. apply remove_live.
    + assert (E := free_unknown_default A es h p I NI). cbn [step] in E. rewrite E. eauto.
Qed.
Lemma run_default A cs : 1 <= A < 2 ^ 31 -> forall es h, Inv Default A es h -> system_ok Default A cs h -> sizes_ok A cs ->
  match run Default A cs h with
  | Val (h', rs) => exists es', Inv Default A es' h' /\ map e_live es' = live cs rs (map e_live es)
  | Abort => exists cs1 p cs2 h' rs, cs = cs1 ++ Free p :: cs2 /\ run Default A cs1 h = Val (h', rs) /\ ~ In p (map fst (live cs1 rs (map e_live es)))
  | Undef => False
  end.
Proof.
  intros HA. induction cs as [|c cs IH]; intros es h I S SZ; cbn [run]; [exists es; auto|].
  destruct S as [C S]. inversion SZ; subst. assert (K := step_default A es h c HA I C ltac:(assumption)).
  destruct (step Default A c h) as [[h1 r]| |] eqn:E; cbn [bind].
  - destruct K as (es1 & I1 & L1). specialize (IH es1 h1 I1 S ltac:(assumption)).
    destruct (run Default A cs h1) as [[h2 rs]| |] eqn:E2; cbn [bind].
    + destruct IH as (es2 & I2 & L2). exists es2. split; [assumption|]. cbn [live]. rewrite <- L1. assumption.
    + destruct IH as (cs1 & p & cs2 & h' & rs & -> & R1 & N). exists (c :: cs1), p, cs2, h', (r :: rs). split; [reflexivity|]. split.
      * cbn [run]. rewrite E. cbn [bind]. rewrite R1. reflexivity.
      * cbn [live]. rewrite <- L1. assumption.
    + exact IH.
  - destruct K as (p & -> & N). exists [], p, cs, h, []. split; [reflexivity|]. split; [reflexivity|]. exact N.
  - exact K.
Qed.

(** ** Histories of the pool allocator *)
Lemma null_align A : 1 <= A < 2 ^ 31 -> align A 0 = 0.
Proof.
  intros HA. assert (2 ^ 31 < 2 ^ 64) by reflexivity. rewrite align_ldiff by lia. cbn [Z.add]. apply Z.ldiff_diag.
Qed.
(** The pool has failed once more often than a null pointer has been freed. *)
Definition null_held (h : heap) : bool := match find_addr 0 (table h) with Some _ => true | None => false end.
Lemma step_pool A es h c : 1 <= A < 2 ^ 31 -> Inv Pool A es h -> call_ok A c h ->
  (match c with Allocate n _ => n + A < 2 ^ 64 | Free _ => True end) ->
  match step Pool A c h with
  | Val (h', r) => (exists es', Inv Pool A es' h' /\ map e_live es' = live1 c r (map e_live es)) /\
                   null_held h' = match c, r with Allocate _ None, Ret 0 => true | Free 0, _ => false | _, _ => null_held h end /\
                   match c with Allocate _ None => r = Ret 0 | Allocate _ (Some _) => exists p, r = Ret p /\ p <> 0 | Free _ => r = Done end
  | Abort => (exists n, c = Allocate n None) /\ null_held h = true
  | Undef => False
  end.
Proof.
  intros HA I OK SZ. destruct c as [n [u|]|p].
  - destruct OK as [N AN]. destruct (add_ok Pool A es h n u HA I N SZ AN) as (F & NZ & I'). cbn [step]. unfold pool_allocate. rewrite F. split; [|split].
    + eexists. split; [exact I'|]. cbn. apply Z.eqb_neq in NZ. rewrite NZ. reflexivity.
    + unfold null_held. cbn [table find_addr]. destruct (Z.eqb_spec (align A u) 0); [congruence|]. reflexivity.
    + eauto.
  - cbn [step]. unfold pool_allocate. rewrite null_align by assumption. destruct (find_addr 0 (table h)) as [v|] eqn:E.
    + split; [eauto|]. unfold null_held. rewrite E. reflexivity.
    + split; [|split; [reflexivity|reflexivity]].
      exists es. split; [|reflexivity]. destruct I as [R T D NU NN OK' AA]. constructor; cbn [raw table]; try assumption.
      * discriminate.
      * cbn. congruence.
      * cbn [erase_addr]. rewrite Z.eqb_refl. apply find_none. assumption.
  - destruct (in_dec Z.eq_dec p (map fst (map e_live es))) as [IN|NI].
    + destruct (free_live Pool A es h p ltac:(lia) I IN) as [E I']. rewrite E. split; [|split].
      * eexists. split; [exact I'|]. apply remove_live.
      * assert (PZ : p <> 0) by (intros ->; exact (live_nonzero Pool A es h ltac:(lia) I IN)).
        unfold null_held. cbn [table]. rewrite find_erase by assumption. destruct p; [congruence|reflexivity|reflexivity].
      * reflexivity.
    + destruct (Z.eq_dec p 0) as [->|PZ].
      * cbn [step]. unfold pool_free.
        assert (U : match find_addr 0 (table h) with Some u => u | None => 0 end = 0) by (destruct (find_addr 0 (table h)) as [v|] eqn:E; [exact (i_null _ _ _ _ I v E)|reflexivity]).
        rewrite U. cbn [Z.eqb bind]. split; [|split; [|reflexivity]].
        -- exists es. split; [|cbn; symmetry; apply drop_absent; assumption].
           destruct I as [R T D NU NN OK' AA]. constructor; cbn [raw table]; try assumption.
           ++ rewrite erase_filter0. assumption.
           ++ discriminate.
           ++ intros v F. exfalso. apply NN. destruct (find_addr 0 (erase_addr 0 (table h))) eqn:E; [|discriminate].
              clear - E. induction (erase_addr 0 (table h)) as [|[q w] m IH]; cbn in *; [discriminate|]. destruct (Z.eqb_spec q 0); auto.
           ++ intros X. apply NN. apply erase_in in X. assumption.
        -- unfold null_held. cbn [table]. rewrite (proj2 (find_none _ _) (i_null_nodup _ _ _ _ I)). reflexivity.
      * rewrite (free_unknown_pool A es h p I NI PZ). split; [|split; [|reflexivity]].
        -- exists es. split; [assumption|]. cbn. symmetry. apply drop_absent. assumption.
        -- destruct p; [congruence|reflexivity|reflexivity].
Qed.

Lemma run_pool A cs : 1 <= A < 2 ^ 31 -> forall es h, Inv Pool A es h -> system_ok Pool A cs h -> sizes_ok A cs ->
  match run Pool A cs h with
  | Val (h', rs) => exists es', Inv Pool A es' h' /\ map e_live es' = live cs rs (map e_live es)
  | Abort => exists cs1 n cs2 h' rs, cs = cs1 ++ Allocate n None :: cs2 /\ run Pool A cs1 h = Val (h', rs) /\ (null_held h = true \/ In (Ret 0) rs)
  | Undef => False
  end.
Proof.
  intros HA. induction cs as [|c cs IH]; intros es h I S SZ; cbn [run]; [exists es; auto|].
  destruct S as [C S]. inversion SZ; subst. assert (K := step_pool A es h c HA I C ltac:(assumption)).
  destruct (step Pool A c h) as [[h1 r]| |] eqn:E; cbn [bind].
  - destruct K as ((es1 & I1 & L1) & NH & RR). specialize (IH es1 h1 I1 S ltac:(assumption)).
    destruct (run Pool A cs h1) as [[h2 rs]| |] eqn:E2; cbn [bind].
    + destruct IH as (es2 & I2 & L2). exists es2. split; [assumption|]. cbn [live]. rewrite <- L1. assumption.
    + destruct IH as (cs1 & n & cs2 & h' & rs & -> & R1 & D). exists (c :: cs1), n, cs2, h', (r :: rs). split; [reflexivity|].
      split; [cbn [run]; rewrite E; cbn [bind]; rewrite R1; reflexivity|].
      destruct D as [D|D]; [|right; right; assumption]. rewrite D in NH. destruct c as [m [u|]|p].
      * left. auto.
      * right. left. assumption.
      * left. destruct p; [discriminate|auto|auto].
    + exact IH.
  - destruct K as ((n & ->) & NH). exists [], n, cs, h, []. split; [reflexivity|]. split; [reflexivity|]. left. assumption.
  - exact K.
Qed.

Lemma inv_forall2 K A es h : 1 <= A -> Inv K A es h -> Forall2 within (map e_live es) (raw h).
Proof.
  intros HA I. rewrite (i_raw _ _ _ _ I). assert (OK := i_ok _ _ _ _ I). clear I. induction es as [|e es IH]; cbn; [constructor|].
  inversion OK; subst. constructor; [|auto]. apply e_within; assumption.
Qed.
Lemma inv_aligned K A es h k : 0 <= k -> A = 2 ^ k -> Inv K A es h -> Forall (fun b => (A | fst b)) (map e_live es).
Proof.
  intros Hk -> I. assert (OK := i_ok _ _ _ _ I). apply Forall_forall. intros b B. apply in_map_iff in B. destruct B as (e & <- & B).
  rewrite Forall_forall in OK. destruct (OK e B) as (N & U & L & E). cbn. rewrite E. apply align_pow2; lia.
Qed.

(** ** Lattice objects *)
(** The owning variables, in the order of the blocks. *)
Record LInv (A : Z) (vs : list nat) (own : nat -> option Z) (used : nat -> bool) (st : lats * heap) : Prop := mkLInv {
  li_inv : exists es, Inv Default A es (snd st) /\
           map e_live es = map (fun x => (match fst st x with Some l => l_F l | None => 0 end, match own x with Some n => n | None => 0 end)) vs;
  li_nodup : NoDup vs;
  li_own : forall x, In x vs <-> own x <> None;
  li_var : forall x, match own x with
                     | Some _ => exists l, fst st x = Some l /\ l_mem l = true
                     | None => match fst st x with Some l => l_mem l = false | None => True end
                     end;
  li_used : forall x, used x = true <-> fst st x <> None }.

Lemma map_upd {B} (f g : nat -> B) x vs : ~ In x vs -> (forall y, y <> x -> f y = g y) -> map f vs = map g vs.
Proof. intros N E. apply map_ext_in. intros y I. apply E. intros ->. contradiction. Qed.
Fixpoint without (x : nat) (vs : list nat) : list nat := match vs with [] => [] | y :: vs => if Nat.eqb y x then vs else y :: without x vs end.
Lemma without_in x vs y : NoDup vs -> (In y (without x vs) <-> In y vs /\ y <> x).
Proof.
  induction vs as [|z vs IH]; cbn; [tauto|]. intros N. inversion N; subst. destruct (Nat.eqb_spec z x) as [->|NE].
  - split; [intros I; split; [auto|intros ->; contradiction]|]. intros [[E|I] NE]; [congruence|assumption].
  - cbn. rewrite IH by assumption. intuition congruence.
Qed.
Lemma without_nodup x vs : NoDup vs -> NoDup (without x vs).
Proof.
  induction vs as [|z vs IH]; cbn; [constructor|]. intros N. inversion N; subst. destruct (Nat.eqb_spec z x); [assumption|]. constructor; [|auto].
  rewrite without_in by assumption. tauto.
Qed.
Lemma drop_without (f : nat -> Z) (g : nat -> Z) x vs : NoDup (map f vs) -> In x vs ->
  drop (f x) (map (fun y => (f y, g y)) vs) = map (fun y => (f y, g y)) (without x vs).
Proof.
  induction vs as [|z vs IH]; cbn; [tauto|]. intros N I. inversion N; subst. destruct (Nat.eqb_spec z x) as [->|NE].
  - rewrite Z.eqb_refl. reflexivity.
  - destruct (Z.eqb_spec (f z) (f x)) as [E|NF]; [exfalso|].
    + destruct I as [->|I]; [congruence|]. match goal with H : ~ In _ _ |- _ => apply H end. rewrite E. apply in_map. assumption.
    + cbn. f_equal. apply IH; [assumption|]. tauto.
Qed.
Lemma inv_addr_nodup K A es h : 1 <= A -> Inv K A es h -> NoDup (map fst (map e_live es)).
Proof.
  intros HA I. assert (OK := i_ok _ _ _ _ I). assert (AP := i_apart _ _ _ _ I). clear I. induction es as [|e es IH]; cbn; [constructor|].
  cbn in AP. inversion OK; subst. inversion AP; subst. constructor; [|auto]. intros X. apply in_map_iff in X. destruct X as (q & E & X). apply in_map_iff in X. destruct X as (f & <- & F).
  match goal with H : Forall (apart _) _ |- _ => rewrite Forall_forall in H; specialize (H (e_raw A f) (in_map _ _ _ F)); rename H into AA end.
  assert (F2 : e_ok A f) by (match goal with H : Forall (e_ok A) es |- _ => rewrite Forall_forall in H; apply H; assumption end).
  assert (W2 := e_within A f HA F2). assert (W1 := e_within A e HA ltac:(assumption)). destruct F2 as (F2 & _).
  match goal with H : e_ok A e |- _ => destruct H as (H & _) end. unfold within, apart in *. cbn in *. lia.
Qed.

Lemma linv_start A : LInv A [] (fun _ => None) (fun _ => false) ((fun _ => None), start).
Proof.
  constructor; cbn.
  - exists []. split; [apply inv_start|reflexivity].
  - constructor.
  - intros x. split; [tauto|congruence].
  - intros; exact I.
  - intros x. split; [discriminate|congruence].
Qed.

Definition failing (c : lat_call) : Prop := exists x sz, c = New x sz None.
Lemma lat_run_ok A sites cs : 1 <= A < 2 ^ 31 -> 0 <= sites -> forall vs own used st, LInv A vs own used st ->
  scopes_ok cs used -> lat_system_ok Default A sites cs st -> lat_sizes_ok A sites cs ->
  match lat_run Default A sites cs st with
  | Val st' => exists vs' used', LInv A vs' (owned sites cs own) used' st'
  | Abort => exists c, In c cs /\ failing c
  | Undef => False
  end.
Proof.
  intros HA HS. induction cs as [|c cs IH]; intros vs own used [s h] I SC SY SZ; cbn [lat_run]; [exists vs, used; exact I|].
  inversion SZ as [|c' cs' SZ1 SZ2]; subst. cbn [lat_system_ok] in SY. destruct SY as [AN SY]. destruct I as [(es & IE & LE) ND OW VA US]. cbn [fst snd] in *.
  assert (NEXT : forall st', lat_step Default A sites c (s, h) = Val st' ->
     (exists vs' own' used', LInv A vs' own' used' st' /\ owned sites (c :: cs) own = owned sites cs own' /\ scopes_ok cs used') ->
     match bind (lat_step Default A sites c (s, h)) (lat_run Default A sites cs) with
     | Val st' => exists vs' used', LInv A vs' (owned sites (c :: cs) own) used' st'
     | Abort => exists c0, In c0 (c :: cs) /\ failing c0
     | Undef => False
     end).
  { intros st' E (vs' & own' & used' & I' & O' & SC'). rewrite E in *. cbn [bind]. rewrite O'. specialize (IH vs' own' used' st' I' SC' SY SZ2).
    destruct (lat_run Default A sites cs st'); [exact IH| |exact IH]. destruct IH as (c0 & ? & ?). exists c0. split; [right|]; assumption. }
  destruct c as [x sz a|x y|x]; cbn [scopes_ok] in SC.
  - destruct SC as (UX & SZ0 & SC). assert (SX : s x = None) by (destruct (s x) eqn:E; [exfalso; assert (used x = true) by (apply US; congruence); congruence|reflexivity]).
    assert (OX : own x = None) by (specialize (VA x); destruct (own x); [destruct VA as (l & VA & _); congruence|reflexivity]).
    assert (NX : ~ In x vs) by (rewrite OW; congruence).
    assert (WS : wrap (sz * sites) = sz * sites) by (apply wrap_small; nia).
    destruct a as [u|].
    + destruct (add_ok Default A es h (sz * sites) u HA IE ltac:(nia) SZ1) as (F & NZ & IE'); [rewrite WS in AN; exact AN|].
      apply NEXT with (st' := (set_lat x (Some (mkLat true (align A u))) s, mkHeap ((u, bytes_to_alloc A (sz * sites)) :: raw h) ((align A u, u) :: table h))).
      { cbn [lat_step]. unfold alloc_mem. cbn [step]. unfold default_allocate. cbn [raw table]. rewrite F, WS. reflexivity. }
      exists (x :: vs), (fun y => if Nat.eqb y x then Some (sz * sites) else own y), (fun y => if Nat.eqb y x then true else used y).
      split; [|split; [reflexivity|exact SC]]. constructor; cbn [fst snd].
      * eexists. split; [exact IE'|]. cbn [map]. unfold set_lat at 1. rewrite Nat.eqb_refl. f_equal. rewrite LE. apply (map_upd _ _ x); [assumption|].
        intros y NE. unfold set_lat. apply Nat.eqb_neq in NE. rewrite NE. reflexivity.
      * constructor; assumption.
      * intros y. cbn. destruct (Nat.eqb_spec y x) as [->|NE]; [split; [discriminate|auto]|]. rewrite <- OW. intuition congruence.
      * intros y. unfold set_lat. destruct (Nat.eqb_spec y x); [eexists; split; reflexivity|]. apply VA.
      * intros y. unfold set_lat. destruct (Nat.eqb_spec y x); [split; [discriminate|reflexivity]|]. apply US.
    + cbn. exists (New x sz None). split; [auto|]. red. eauto.
  - destruct SC as (UX & UY & SC). assert (SX : s x = None) by (destruct (s x) eqn:E; [exfalso; assert (used x = true) by (apply US; congruence); congruence|reflexivity]).
    assert (OX : own x = None) by (specialize (VA x); destruct (own x); [destruct VA as (l & VA & _); congruence|reflexivity]).
    assert (NX : ~ In x vs) by (rewrite OW; congruence).
    destruct (s y) as [l|] eqn:SY'; [|exfalso; apply US in UY; congruence].
    apply NEXT with (st' := (set_lat x (Some (lat_view (l_F l))) s, h)); [cbn [lat_step]; rewrite SY'; reflexivity|].
    exists vs, (fun z => if Nat.eqb z x then None else own z), (fun z => if Nat.eqb z x then true else used z). split; [|split; [reflexivity|exact SC]].
    constructor; cbn [fst snd].
    + exists es. split; [assumption|]. rewrite LE. apply (map_upd _ _ x); [assumption|]. intros z NE. unfold set_lat. apply Nat.eqb_neq in NE. rewrite NE. reflexivity.
    + assumption.
    + intros z. destruct (Nat.eqb_spec z x) as [->|NE]; [rewrite OW; rewrite OX; tauto|apply OW].
    + intros z. unfold set_lat. destruct (Nat.eqb_spec z x); [reflexivity|]. apply VA.
    + intros z. unfold set_lat. destruct (Nat.eqb_spec z x); [split; [discriminate|reflexivity]|]. apply US.
  - destruct SC as (UX & SC). destruct (s x) as [l|] eqn:SX; [|exfalso; apply US in UX; congruence].
    assert (VX := VA x). rewrite SX in VX. destruct (own x) as [n|] eqn:OX.
    + destruct VX as (l' & E & LM). injection E as <-.
      assert (INX : In x vs) by (apply OW; congruence).
      assert (PIN : In (l_F l) (map fst (map e_live es))).
      { rewrite LE, map_map. cbn [fst]. apply in_map_iff. exists x. rewrite SX. auto. }
      destruct (free_live Default A es h (l_F l) ltac:(lia) IE PIN) as [FE IE'].
      assert (NZ : l_F l <> 0) by (intros Z0; rewrite Z0 in PIN; exact (live_nonzero Default A es h ltac:(lia) IE PIN)).
      eapply NEXT.
      { cbn [lat_step]. rewrite SX. cbn [of_option bind]. unfold free_mem. rewrite LM. cbn [negb]. apply Z.eqb_neq in NZ. rewrite NZ, FE. reflexivity. }
      exists (without x vs), (fun y => if Nat.eqb y x then None else own y), (fun y => if Nat.eqb y x then false else used y).
      split; [|split; [reflexivity|exact SC]]. constructor; cbn [fst snd].
      * eexists. split; [exact IE'|]. rewrite remove_live, LE.
        assert (NDF := inv_addr_nodup Default A es h ltac:(lia) IE). rewrite LE, map_map in NDF. cbn [fst] in NDF.
        assert (D := drop_without (fun y => match s y with Some l => l_F l | None => 0 end) (fun y => match own y with Some n => n | None => 0 end) x vs NDF INX).
        cbv beta in D. rewrite SX in D. rewrite D. apply (map_upd _ _ x); [rewrite without_in by assumption; tauto|].
        intros y NE. unfold set_lat. apply Nat.eqb_neq in NE. rewrite NE. reflexivity.
      * apply without_nodup. assumption.
      * intros y. rewrite without_in by assumption. destruct (Nat.eqb_spec y x) as [->|NE]; [tauto|]. rewrite OW. tauto.
      * intros y. unfold set_lat. destruct (Nat.eqb_spec y x); [exact Logic.I|]. apply VA.
      * intros y. unfold set_lat. destruct (Nat.eqb_spec y x); [split; [discriminate|congruence]|]. apply US.
    + apply NEXT with (st' := (set_lat x None s, h)); [cbn [lat_step]; rewrite SX; cbn [of_option bind]; unfold free_mem; rewrite VX; reflexivity|].
      assert (NX : ~ In x vs) by (rewrite OW; congruence).
      exists vs, (fun z => if Nat.eqb z x then None else own z), (fun z => if Nat.eqb z x then false else used z). split; [|split; [reflexivity|exact SC]].
      constructor; cbn [fst snd].
      * exists es. split; [assumption|]. rewrite LE. apply (map_upd _ _ x); [assumption|]. intros z NE. unfold set_lat. apply Nat.eqb_neq in NE. rewrite NE. reflexivity.
      * assumption.
      * intros z. destruct (Nat.eqb_spec z x) as [->|NE]; [rewrite OW; rewrite OX; tauto|apply OW].
      * intros z. unfold set_lat. destruct (Nat.eqb_spec z x); [exact Logic.I|]. apply VA.
      * intros z. unfold set_lat. destruct (Nat.eqb_spec z x); [split; [discriminate|congruence]|]. apply US.
Qed.

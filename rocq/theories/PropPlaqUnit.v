(** C106, continued: the unit configuration and its gauge transforms. *)
From Coq Require Import List Arith ZArith Bool Lia Ring Ring_theory Setoid Morphisms QArith Qcanon.
From Verif Require Import Base ComplexModel PropComplex LayoutModel LayoutSpec LayoutProofs LayoutOk LayoutCases MapModel MapSpec MapProofs MapNN
  TensorModel TensorSpec TensorProofs LatIoModel LatIoSpec LatIoProofs LatIoOk IoNodeProofs PlaqModel PlaqSpec PlaqProofs PropPlaq.
Import ListNotations.
Local Open Scope nat_scope.

(** All links are the unit matrix. *)
Definition cold {R} (rO rI : R) : @gauge R := fun _ _ i j => if i =? j then (rI, rO) else (rO, rO).

Section P.
Context {R : Type} (rO rI : R) (radd rmul rsub rdiv : R -> R -> R) (ropp : R -> R) (ofZ : Z -> R).
Context (Rth : ring_theory rO rI radd rmul rsub ropp (@eq R)).
(** Numbers contain the integers, and division is division. *)
Context (of0 : ofZ 0%Z = rO) (of1 : ofZ 1%Z = rI) (ofadd : forall a b, ofZ (a + b)%Z = radd (ofZ a) (ofZ b))
  (ofmul : forall a b, ofZ (a * b)%Z = rmul (ofZ a) (ofZ b))
  (divides : forall x z, z <> 0%Z -> rmul (rdiv x (ofZ z)) (ofZ z) = x)
  (cancels : forall x y z, z <> 0%Z -> rmul x (ofZ z) = rmul y (ofZ z) -> x = y).
Add Ring Rru : Rth.
Local Notation rsum := (rsum rO radd).

Lemma rsum_const {A} (l : list A) f k : (forall a, In a l -> f a = ofZ k) -> rsum l f = ofZ (Z.of_nat (length l) * k)%Z.
Proof using All.
  induction l as [|a l IH]; intros H; [symmetry; exact of0|]. change (radd (f a) (rsum l f) = ofZ (Z.of_nat (S (length l)) * k)).
  rewrite H by now left. rewrite IH by (intros; apply H; now right). rewrite <- ofadd. f_equal. lia.
Qed.
Lemma rsum_mu nd f k : (forall mu, mu < nd -> f mu = ofZ (Z.of_nat mu * k)%Z) ->
  radd (rsum (seq 0 nd) f) (rsum (seq 0 nd) f) = ofZ (Z.of_nat nd * (Z.of_nat nd - 1) * k)%Z.
Proof using All.
  induction nd as [|d IH]; intros H.
  - change (radd rO rO = ofZ 0). rewrite of0. ring.
  - rewrite seq_S, (rsum_app rO rI radd rmul rsub ropp Rth). cbn [Nat.add].
    change (rsum [d] f) with (radd (f d) rO). rewrite H by lia.
    transitivity (radd (radd (rsum (seq 0 d) f) (rsum (seq 0 d) f)) (radd (ofZ (Z.of_nat d * k)) (ofZ (Z.of_nat d * k)))); [ring|].
    rewrite IH by (intros; apply H; lia). rewrite <- !ofadd. f_equal. lia.
Qed.
Lemma csum_ones n : fst (csum rO radd n (fun i => if i =? i then (rI, rO) else (rO, rO))) = ofZ (Z.of_nat n).
Proof using All.
  unfold PlaqSpec.csum. cbn [fst]. rewrite (rsum_const (seq 0 n) _ 1%Z); [rewrite seq_length; f_equal; lia|].
  intros i _. rewrite Nat.eqb_refl, of1. reflexivity.
Qed.
Lemma cold_plaquette n L mu nu x : 0 < n -> plaquette rO radd rmul rsub ropp n L (cold rO rI) mu nu x = ofZ (Z.of_nat n).
Proof using All.
  intros Hn. rewrite (plaquette_trace rO rI radd rmul rsub rdiv ropp ofZ Rth).
  rewrite <- csum_ones, (csum_cs rO rI radd rmul rsub ropp Rth). f_equal.
  change (fun i : nat => if i =? i then (rI, rO) else (rO, rO)) with (fun i : nat => mone rO rI i i).
  change (cold rO rI mu x) with (mone rO rI). change (cold rO rI nu (ahead L mu x)) with (mone rO rI).
  change (cold rO rI mu (ahead L nu x)) with (mone rO rI). change (cold rO rI nu x) with (mone rO rI).
  change (TensorSpec.csum rO radd (seq 0 n) (fun i => mone rO rI i i)) with (mtr rO radd n (mone rO rI)).
  apply (mtr_p rO rI radd rmul rsub ropp Rth n Hn).
  assert (A : meq n (madj ropp (mone rO rI)) (mone rO rI)).
  { intros i j _ _. unfold madj, mone. rewrite Nat.eqb_sym. destruct (i =? j); cbv [c_conj]; cbn; f_equal; ring. }
  pose proof (meq_eq rO rI radd rmul rsub ropp Rth n Hn) as EQ.
  pose proof (mone_l rO rI radd rmul rsub ropp Rth n Hn) as ML. pose proof (mmul_p rO rI radd rmul rsub ropp Rth n Hn) as MP.
  transitivity (mmul rO radd rmul rsub n (mmul rO radd rmul rsub n (mone rO rI) (madj ropp (mone rO rI))) (madj ropp (mone rO rI))); [apply ML|].
  transitivity (mmul rO radd rmul rsub n (mone rO rI) (mone rO rI)); [|apply ML].
  apply MP; [|exact A]. transitivity (madj ropp (mone rO rI)); [apply ML|exact A].
Qed.

(** Plaquette and link of the unit configuration are 1. *)
Theorem C106_cold : forall b n, build_ok b -> 0 < n -> 2 <= length (build_size b) -> (divisor (build_size b) n < 2 ^ 31)%Z ->
  mesplq rO radd rmul rsub rdiv ropp ofZ b n (as_fields b n (cold rO rI)) = Val (rI, rI).
Proof using All.
  intros b n HB Hn H2 HD. rewrite (C106_value rO rI radd rmul rsub rdiv ropp ofZ Rth) by assumption.
  assert (0 < volume (build_size b)) as HV
    by (apply volume_pos; destruct (build_layout rO rI radd rmul rsub ropp Rth b HB) as (_ & P & _); exact P).
  assert (LV : length (all_sites (build_size b)) = volume (build_size b)) by apply all_sites_length.
  set (L := build_size b) in *. do 2 f_equal.
  - assert (Q : radd (plaquettes rO radd rmul rsub ropp n L (cold rO rI)) (plaquettes rO radd rmul rsub ropp n L (cold rO rI)) = ofZ (divisor L n)).
    { unfold plaquettes. rewrite (rsum_mu _ _ (Z.of_nat (volume L) * Z.of_nat n)).
      - f_equal. unfold divisor. ring.
      - intros mu _. rewrite (rsum_const (seq 0 mu) _ (Z.of_nat (volume L) * Z.of_nat n)); [now rewrite seq_length|].
        intros nu _. rewrite (rsum_const _ _ (Z.of_nat n)); [now rewrite LV|]. intros x _. now apply cold_plaquette. }
    assert (D0 : divisor L n <> 0%Z) by (unfold divisor; nia).
    apply (cancels _ _ _ D0). transitivity (rmul (plaquettes rO radd rmul rsub ropp n L (cold rO rI)) (ofZ 2)).
    + rewrite <- (divides (ofZ 2) (divisor L n) D0) at 2. ring.
    + change 2%Z with (1 + 1)%Z. rewrite ofadd, of1. rewrite <- Q. ring.
  - assert (Q : links rO radd n L (cold rO rI) = ofZ (divisor_link L n)).
    { unfold links. rewrite (rsum_const _ _ (Z.of_nat (volume L) * Z.of_nat n)).
      - rewrite seq_length. f_equal. unfold divisor_link. ring.
      - intros mu _. rewrite (rsum_const _ _ (Z.of_nat n)); [now rewrite LV|]. intros x _. unfold link_trace, cold. apply csum_ones. }
    assert (D0 : divisor_link L n <> 0%Z) by (unfold divisor_link; nia).
    apply (cancels _ _ _ D0). rewrite divides by exact D0. rewrite Q. ring.
Qed.

(** So every gauge transform of the unit configuration has plaquette 1. *)
Theorem C106_pure_gauge : forall b n g, build_ok b -> 0 < n -> 2 <= length (build_size b) -> (divisor (build_size b) n < 2 ^ 31)%Z ->
  (forall x, in_lattice (build_size b) x -> unitary rO rI radd rmul rsub ropp n (g x)) ->
  exists l, mesplq rO radd rmul rsub rdiv ropp ofZ b n
    (as_fields b n (transformed rO radd rmul rsub ropp n (build_size b) g (cold rO rI))) = Val (rI, l).
Proof using All.
  intros b n g HB Hn H2 HD HU.
  destruct (C106_gauge_invariant rO rI radd rmul rsub rdiv ropp ofZ Rth b n (cold rO rI) g HB Hn H2 HD HU) as (w & l & l' & E & E').
  rewrite C106_cold in E by assumption. injection E as <- <-. eauto.
Qed.
End P.
Print Assumptions C106_cold.
Print Assumptions C106_pure_gauge.

(** The rational numbers meet the hypotheses. *)
Definition qz (z : Z) : Qc := Q2Qc (inject_Z z).
Example C106_rational : ring_theory 0%Qc 1%Qc Qcplus Qcmult Qcminus Qcopp (@eq Qc) /\
  qz 0 = 0%Qc /\ qz 1 = 1%Qc /\ (forall a b, qz (a + b) = qz a + qz b)%Qc /\ (forall a b, qz (a * b) = qz a * qz b)%Qc /\
  (forall x z, z <> 0%Z -> (x / qz z * qz z = x)%Qc) /\
  (forall x y z, z <> 0%Z -> (x * qz z = y * qz z -> x = y)%Qc) /\
  mesplq 0%Qc Qcplus Qcmult Qcminus Qcdiv Qcopp qz (Single CB2 [4; 2]%nat) 2%nat (as_fields (Single CB2 [4; 2]%nat) 2%nat (cold 0%Qc 1%Qc)) = Val (1%Qc, 1%Qc).
Proof.
  assert (NZ : forall z, z <> 0%Z -> qz z <> 0%Qc).
  { intros z Hz E. apply Hz. unfold qz in E. apply Q2Qc_eq_iff in E. unfold Qeq in E. cbn in E. lia. }
  assert (A : forall a b, qz (a + b) = (qz a + qz b)%Qc).
  { intros a b. unfold qz. apply Qc_is_canon. cbn [this Qcplus Q2Qc]. rewrite !Qred_correct, inject_Z_plus. reflexivity. }
  assert (M : forall a b, qz (a * b) = (qz a * qz b)%Qc).
  { intros a b. unfold qz. apply Qc_is_canon. cbn [this Qcmult Q2Qc]. rewrite !Qred_correct, inject_Z_mult. reflexivity. }
  assert (D : forall x z, z <> 0%Z -> (x / qz z * qz z = x)%Qc).
  { intros x z Hz. specialize (NZ z Hz). field. exact NZ. }
  assert (C : forall x y z, z <> 0%Z -> (x * qz z = y * qz z -> x = y)%Qc).
  { intros x y z Hz E. specialize (NZ z Hz). assert (x * qz z / qz z = y * qz z / qz z)%Qc as F by now rewrite E.
    rewrite <- (Qcdiv_mult_l x (qz z)), <- (Qcdiv_mult_l y (qz z)) by exact NZ. exact F. }
  split; [exact Qcrt|]. split; [reflexivity|]. split; [reflexivity|]. split; [exact A|]. split; [exact M|]. split; [exact D|]. split; [exact C|].
  apply (C106_cold 0%Qc 1%Qc Qcplus Qcmult Qcminus Qcdiv Qcopp qz Qcrt eq_refl eq_refl A M D C);
    [apply adm1_case; reflexivity|lia|cbn; lia|reflexivity].
Qed.

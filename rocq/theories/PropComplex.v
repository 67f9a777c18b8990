(** C72: complex arithmetic. *)
From Coq Require Import ZArith QArith Qcanon List Bool Lia Ring Ring_theory Field_theory.
From Verif Require Import Base ComplexModel.
Import ListNotations.
Set Default Timeout 120.

Section C72.
Context {R : Type} (rO rI : R) (radd rmul rsub rdiv : R -> R -> R) (ropp : R -> R).
Context (Rth : ring_theory rO rI radd rmul rsub ropp (@eq R)).
Add Ring Rr : Rth.
Local Notation "x + y" := (radd x y).
Local Notation "x - y" := (rsub x y).
Local Notation "x * y" := (rmul x y).
Local Notation "- x" := (ropp x).
Local Notation mul := (c_mul radd rmul rsub).
Local Notation add := (c_add radd).
Local Notation sub := (c_sub rsub).
Local Notation neg := (c_neg ropp).
Local Notation conj := (c_conj ropp).
(** The number x as a complex number, and i. *)
Local Notation real x := (x, rO).
Local Notation i := (rO, rI).

Ltac crush :=
  intros; unfold c_mul, c_add, c_sub, c_neg, c_conj, c_add_cs, c_add_sc, c_sub_cs, c_sub_sc,
    c_mul_cs, c_mul_sc, c_adjMultiply, c_multiplyAdj, c_adjMultiplyAdj, c_adj, c_transpose, c_trace,
    c_traceMultiply, c_cmplx, c_timesI, c_timesMinusI, c_timesI_s, c_timesMinusI_s, c_outerProduct,
    c_outerProduct_cs, c_outerProduct_sc, c_localInnerProduct, c_localNorm2, c_localInnerProductReal,
    c_where, c_realTrace, c_imagTrace in *;
  repeat match goal with z : (R * R)%type |- _ => destruct z end; cbn [fst snd]; 
  try (f_equal; ring); try ring.

(** The operators make a commutative ring, generated by the real numbers and i
    with i i = -1. *)
Theorem C72_ring : ring_theory (real rO) (real rI) add mul sub neg (@eq (R * R)).
Proof. constructor; crush. Qed.
Theorem C72_generated : forall a b (z : R * R),
  mul i i = neg (real rI) /\
  add (real a) (real b) = real (a + b) /\ mul (real a) (real b) = real (a * b) /\
  neg (real a) = real (- a) /\ sub (real a) (real b) = real (a - b) /\
  z = add (real (fst z)) (mul i (real (snd z))) /\
  c_cmplx a b = add (real a) (mul i (real b)).
Proof. intros. repeat split; crush. Qed.
(** A real operand is a complex one with no imaginary part. *)
Theorem C72_mixed : forall a z,
  c_add_cs radd z a = add z (real a) /\ c_add_sc radd a z = add (real a) z /\
  c_sub_cs rsub z a = sub z (real a) /\ c_sub_sc rsub ropp a z = sub (real a) z /\
  c_mul_cs rmul z a = mul z (real a) /\ c_mul_sc rmul a z = mul (real a) z /\
  c_outerProduct_cs rmul z a = c_outerProduct radd rmul rsub z (real a) /\
  c_outerProduct_sc rmul ropp a z = c_outerProduct radd rmul rsub (real a) z.
Proof. intros. repeat split; crush. Qed.
(** conj is the automorphism that fixes the reals and reverses i; the fused
    functions are products with conjugates. *)
Theorem C72_conjugate : forall a w z,
  conj (add w z) = add (conj w) (conj z) /\ conj (mul w z) = mul (conj w) (conj z) /\
  conj (conj z) = z /\ conj (real a) = real a /\ conj i = neg i /\
  c_adj ropp z = conj z /\ c_transpose z = z /\ c_trace z = z /\
  c_adjMultiply radd rmul rsub w z = mul (conj w) z /\
  c_multiplyAdj radd rmul rsub w z = mul w (conj z) /\
  c_adjMultiplyAdj radd rmul rsub ropp w z = mul (conj w) (conj z) /\
  c_outerProduct radd rmul rsub w z = mul w (conj z) /\
  c_localInnerProduct radd rmul rsub w z = mul (conj w) z /\
  c_localInnerProductReal radd rmul w z = fst (mul (conj w) z) /\
  real (c_localNorm2 radd rmul z) = mul (conj z) z /\
  c_traceMultiply radd rmul rsub w z = mul w z /\
  add (real (c_realTrace z)) (mul i (real (c_imagTrace z))) = z.
Proof. intros. repeat split; crush. Qed.
Theorem C72_times_i : forall a z,
  c_timesI ropp z = mul i z /\ c_timesMinusI ropp z = mul (neg i) z /\
  c_timesI_s rO a = mul i (real a) /\ c_timesMinusI_s rO ropp a = mul (neg i) (real a).
Proof. intros. repeat split; crush. Qed.
Theorem C72_where : forall (b : bool) (w z : R * R), c_where b w z = (if b then w else z).
Proof. intros [] [] []; reflexivity. Qed.

(** Division undoes multiplication wherever the divisor has a non-zero norm. *)
Context (div_ok : forall a b, b <> rO -> rmul (rdiv a b) b = a).
Theorem C72_divide : forall a w z, c_localNorm2 radd rmul z <> rO ->
  mul (c_div rI radd rmul rsub rdiv w z) z = w /\
  mul (c_div_sc rI radd rmul rdiv ropp a z) z = real a.
Proof.
  intros a [wr wi] [zr zi] H. unfold c_localNorm2 in H. cbn [fst snd] in H.
  pose proof (div_ok rI _ H) as D. unfold c_div, c_div_sc. cbn [fst snd].
  generalize dependent (rdiv rI (zr * zr + zi * zi)). intros t D. unfold c_mul. cbn [fst snd].
  assert (E1 : (wr * zr + wi * zi) * t * zr - (wi * zr - wr * zi) * t * zi = wr * (t * (zr * zr + zi * zi))) by ring.
  assert (E2 : (wr * zr + wi * zi) * t * zi + (wi * zr - wr * zi) * t * zr = wi * (t * (zr * zr + zi * zi))) by ring.
  assert (E3 : a * zr * t * zr - - a * zi * t * zi = a * (t * (zr * zr + zi * zi))) by ring.
  rewrite E1, E2, E3, D. split; f_equal; ring.
Qed.
Theorem C72_divide_real : forall a z, a <> rO ->
  mul (c_div_cs rI rmul rdiv z a) (real a) = z.
Proof.
  intros a [zr zi] H. pose proof (div_ok rI _ H) as D. unfold c_div_cs. cbn [fst snd].
  generalize dependent (rdiv rI a). intros t D. unfold c_mul. cbn [fst snd].
  assert (E1 : zr * t * a - zi * t * rO = zr * (t * a)) by ring.
  assert (E2 : zr * t * rO + zi * t * a = zi * (t * a)) by ring.
  rewrite E1, E2, D. f_equal; ring.
Qed.

(** z op= w is z = z op w, also when both are the same variable; nothing else
    changes. *)
Theorem C72_assign : forall (s : store) x y v,
  a_assign x y s v = (if Nat.eqb x v then s y else s v) /\
  a_add radd x y s v = (if Nat.eqb x v then add (s x) (s y) else s v) /\
  a_sub rsub x y s v = (if Nat.eqb x v then sub (s x) (s y) else s v) /\
  a_mul radd rmul rsub x y s v = (if Nat.eqb x v then mul (s x) (s y) else s v) /\
  a_div rI radd rmul rsub rdiv x y s v =
    (if Nat.eqb x v then c_div rI radd rmul rsub rdiv (s x) (s y) else s v).
Proof.
  intros. unfold a_assign, a_add, a_sub, a_mul, a_div, put_im, put_re, put. 
  rewrite !Nat.eqb_refl. cbn [fst snd].
  repeat split; (destruct (Nat.eqb x v); [|reflexivity]);
    (destruct (Nat.eqb x y) eqn:E;
      [apply PeanoNat.Nat.eqb_eq in E; subst y|]; cbn [fst snd];
      repeat match goal with |- context [s ?a] => destruct (s a) end; reflexivity).
Qed.
Theorem C72_assign_real : forall (s : store) x r v,
  a_assign_s rO x r s v = (if Nat.eqb x v then real r else s v) /\
  a_add_s radd x r s v = (if Nat.eqb x v then add (s x) (real r) else s v) /\
  a_sub_s rsub x r s v = (if Nat.eqb x v then sub (s x) (real r) else s v) /\
  a_mul_s rmul x r s v = (if Nat.eqb x v then mul (s x) (real r) else s v) /\
  (r <> rO -> mul (a_div_s rdiv x r s x) (real r) = s x) /\
  (x <> v -> a_div_s rdiv x r s v = s v).
Proof.
  intros. unfold a_assign_s, a_add_s, a_sub_s, a_mul_s, a_div_s, put_im, put_re, put.
  rewrite !Nat.eqb_refl. cbn [fst snd].
  split; [|split; [|split; [|split; [|split]]]];
    try (match goal with |- context [c_mul] => idtac | |- _ = _ => idtac end; destruct (Nat.eqb x v); [|reflexivity]).
  - reflexivity.
  - unfold c_add. cbn [fst snd]. f_equal. ring.
  - unfold c_sub. cbn [fst snd]. f_equal. ring.
  - unfold c_mul. cbn [fst snd]. f_equal; ring.
  - intros H. destruct (s x) as [a b]. cbn [fst snd]. unfold c_mul. cbn [fst snd].
    rewrite !(div_ok _ _ H). f_equal; ring.
  - intros H. apply PeanoNat.Nat.eqb_neq in H. rewrite ?H. reflexivity.
Qed.
End C72.
Print Assumptions C72_ring.
Print Assumptions C72_generated.
Print Assumptions C72_mixed.
Print Assumptions C72_conjugate.
Print Assumptions C72_times_i.
Print Assumptions C72_where.
Print Assumptions C72_divide.
Print Assumptions C72_divide_real.
Print Assumptions C72_assign.
Print Assumptions C72_assign_real.

(** The rational numbers meet the hypotheses; z /= z is 1. *)
Example C72_case :
  ring_theory (Q2Qc 0) (Q2Qc 1) Qcplus Qcmult Qcminus Qcopp (@eq Qc) /\
  (forall a b, b <> Q2Qc 0 -> Qcmult (Qcdiv a b) b = a) /\
  c_localNorm2 Qcplus Qcmult (Q2Qc 3, Q2Qc 4) <> Q2Qc 0 /\
  a_div (Q2Qc 1) Qcplus Qcmult Qcminus Qcdiv 0 0 (fun _ => (Q2Qc 3, Q2Qc 4)) 0%nat
  = (Q2Qc 1, Q2Qc 0).
Proof.
  split; [exact Qcrt|]. split.
  - intros a b H. rewrite Qcmult_comm. now apply Qcmult_div_r.
  - split; [vm_compute; discriminate|].
    rewrite (surjective_pairing (a_div _ _ _ _ _ _ _ _ _)). f_equal; apply Qc_is_canon; vm_compute; reflexivity.
Qed.

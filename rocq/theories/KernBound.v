(** Staying within the arrays; the named parts of a spinor. *)
From Coq Require Import ZArith List String Bool Lia Ring.
From Verif Require Import Base GammaModel GammaSpec KernLang KernSym KernSound KernSpec KernVec.
Import ListNotations.
Local Open Scope string_scope.
Local Open Scope Z_scope.

Lemma elementwise_in_bounds (R : Type) (rO : R) radd rmul rsub ropp c params cnt out scalars arrays f :
  elementwise rO radd rmul rsub ropp c params cnt out scalars (map (fun x => (x, 0)) arrays) f ->
  in_bounds rO radd rmul rsub ropp c params cnt out scalars arrays.
Proof.
  intros E m adr n Hn Ho Hs Ha. destruct (E m adr n Hn Ho Hs) as (m' & C & _); [|eauto].
  intros x more I. apply in_map_iff in I as (y & Y & I). inv Y. destruct (Ha _ I) as [A B]. split; [|auto].
  destruct (n =? 0); now rewrite Z.add_0_r.
Qed.

(** One site; every pointer to an object of its own, of exactly 24 reals. *)
Definition one_site (b : nat) (o : Z) : option Z := if (0 <=? o) && (o <? 24) then Some 0 else None.
Fixpoint number (l : list string) (k : nat) (x : string) : ptr :=
  match l with [] => (k, 0) | y :: l' => if String.eqb x y then (k, 0) else number l' (S k) x end.

Lemma number_fst l k x : (k <= fst (number l k x))%nat.
Proof. revert k. induction l; cbn; intros k; [lia|]. destruct (String.eqb x a); cbn; [lia|]. specialize (IHl (S k)). lia. Qed.

Lemma one_site_has l k x len : len <= 24 -> has one_site (number l k x) len.
Proof.
  intros H i Hi. unfold cell, one_site.
  replace (snd (number l k x)) with 0 by (revert k; induction l; cbn; intros; [auto|]; destruct (String.eqb x a); cbn; auto).
  destruct (Z.leb_spec 0 (0 + i)); [|lia]. destruct (Z.ltb_spec (0 + i) 24); [discriminate|lia].
Qed.

Definition is_val {A} (r : res A) : bool := match r with Val _ => true | _ => false end.

Lemma over_read c params cnt out scalars arrays :
  forallb (fun p => (snd p <=? 24) && negb (String.eqb (fst p) out)) scalars &&
  forallb (fun x => negb (String.eqb x out)) arrays &&
  negb (is_val (call 0 Z.add Z.mul Z.sub Z.opp c (map (fun x => (x, number (out :: params) 0 x)) params) [(cnt, 1)] one_site)) = true ->
  ~ in_bounds 0 Z.add Z.mul Z.sub Z.opp c params cnt out scalars arrays.
Proof.
  rewrite !andb_true_iff, !forallb_forall. intros [[Hs Ha] V] B.
  assert (Ap : forall x, negb (String.eqb x out) = true -> apart (number (out :: params) 0 x) (number (out :: params) 0 out)).
  { intros x N. rewrite negb_true_iff in N. unfold apart. cbn. rewrite N, String.eqb_refl. cbn.
    pose proof (number_fst params 1 x). lia. }
  destruct (B one_site (number (out :: params) 0) 1) as [m' E].
  - lia.
  - apply one_site_has. lia.
  - intros s l I. specialize (Hs _ I). cbn [fst snd] in Hs. rewrite andb_true_iff, Z.leb_le in Hs.
    destruct Hs. split; [now apply one_site_has|auto].
  - intros x I. specialize (Ha _ I). split; [apply one_site_has; lia|right; auto].
  - rewrite E in V. discriminate V.
Qed.

Lemma upper_spinor s a c r : 0 <= a < 4 -> 0 <= c < 3 -> 0 <= r < 2 ->
  upper (24 * s + (6 * a + 2 * c + r)) = (a <? 2).
Proof.
  intros. unfold upper. replace (24 * s + (6 * a + 2 * c + r)) with (6 * a + 2 * c + r + s * 24) by ring.
  rewrite Z.mod_add, Z.mod_small by lia. destruct (Z.ltb_spec a 2); [apply Z.ltb_lt|apply Z.ltb_ge]; lia.
Qed.
Lemma re_spinor s a c : re_part (24 * s + (6 * a + 2 * c)) = true.
Proof.
  unfold re_part. replace (24 * s + (6 * a + 2 * c)) with (0 + (12 * s + 3 * a + c) * 2) by ring.
  now rewrite Z.mod_add by lia.
Qed.
Lemma im_spinor s a c : re_part (24 * s + (6 * a + 2 * c + 1)) = false.
Proof.
  unfold re_part. replace (24 * s + (6 * a + 2 * c + 1)) with (1 + (12 * s + 3 * a + c) * 2) by ring.
  now rewrite Z.mod_add by lia.
Qed.

Lemma spin_parts (R : Type) (rO : R) (radd rsub : R -> R -> R) (ropp : R -> R) (x : @vec R) (s c : Z) : 0 <= c < 3 ->
  let O := rcomplex_ops rO radd rsub ropp in
  spinor (P_plus rO x) s c = chiralProjectPlus_vec O (spinor x s c) /\
  spinor (P_minus rO x) s c = chiralProjectMinus_vec O (spinor x s c) /\
  gamma_vec O DeGrandRossi 15 (spinor x s c) = Some (spinor (g5 ropp x) s c) /\
  spinor (times_i ropp x) s c = vmap (e_timesI O) (spinor x s c).
Proof.
  intros Hc. cbv zeta.
  assert (U0 : forall a, 0 <= a < 4 -> upper (24 * s + (6 * a + 2 * c)) = (a <? 2)).
  { intros a Ha. rewrite <- (Z.add_0_r (6 * a + 2 * c)). apply upper_spinor; lia. }
  assert (U1 : forall a, 0 <= a < 4 -> upper (24 * s + (6 * a + 2 * c + 1)) = (a <? 2)).
  { intros a Ha. apply upper_spinor; lia. }
  unfold spinor, P_plus, P_minus, g5, times_i. cbv zeta.
  rewrite !U0, !U1, !re_spinor, !im_spinor by lia.
  repeat split.
  unfold vmap. cbn [e_timesI rcomplex_ops fst snd el q0 q1 q2 q3].
  assert (S1 : forall a, 24 * s + (6 * a + 2 * c) + 1 = 24 * s + (6 * a + 2 * c + 1)) by (intros; lia).
  assert (S2 : forall a, 24 * s + (6 * a + 2 * c + 1) - 1 = 24 * s + (6 * a + 2 * c)) by (intros; lia).
  now rewrite !S1, !S2.
Qed.

From Coq Require Import List Bool Arith NArith ZArith Lia Ring.
From Verif Require Import SseMachine SseSpec SseBlasSpec SseBlasProofs Sse4Machine SseSpinMachine SseSpinKernels SseSpinSpec SseSpinWindow SseSpinCases SseSpinProofs SseSpinFields.
From Verif Require Import SseEval SseProofs PropSse.
Import ListNotations.
Open Scope nat_scope.

(** C103: the SSE kernels for spin projection and reconstruction. *)

(** inlineSpinProjDirXY: each site of the destination gets the upper components of
    (1 +- gamma) times the source's site; nothing else changes. *)
Theorem C103_project : forall (R : cring) mu plus x o d p n (m : mem R) F,
  x <> d -> o mod 4 = 0 -> p mod 4 = 0 -> 1 <= n -> (N.of_nat n <= 2 ^ 32)%N ->
  (forall i, i < n -> ferm_at m x (o + 24 * i) (F i)) ->
  (forall j, j < 12 * n -> m d (p + j) <> None) ->
  exists m', spin_call (arith_of R) (spin_kernel Project mu plus) x o d p (N.of_nat n) m = Some m' /\
    (forall i, i < n -> half_at m' d (p + 12 * i) (one_pm (arith_of R) mu plus (F i))) /\
    only m m' d p (12 * n).
Proof.
  intros R mu plus x o d p n m F XD O4 P4 N1 N2 HF HD.
  pose proof (sites_words m x o 24 n (fun i => fword (F i)) ltac:(lia) (fun i I => proj1 (ferm_words m x (o + 24 * i) (F i)) (HF i I))) as W1.
  pose proof (defined_words m (c0 R) d p (12 * n) HD) as W2.
  destruct (call_ok R Project mu plus x d XD n o p _ _ m O4 P4 N1 N2 W1 W2) as (m' & C & OK & ON).
  exists m'. split; [exact C|]. split; [|exact ON]. intros i I. apply half_words. intros j J.
  etransitivity; [exact (OK i I j J)|]. refine (f_equal Some (project_word R mu plus (F i) _ j _ J)).
  intros q Q. exact (site_word (fun i => fword (F i)) 24 i q Q).
Qed.

(** inlineSpinReconDirXY: each site of the destination gets the spinor reconstructed from
    the source's half spinor. *)
Theorem C103_reconstruct : forall (R : cring) mu plus x o d p n (m : mem R) H,
  x <> d -> o mod 4 = 0 -> p mod 4 = 0 -> 1 <= n -> (N.of_nat n <= 2 ^ 32)%N ->
  (forall i, i < n -> half_at m x (o + 12 * i) (H i)) ->
  (forall j, j < 24 * n -> m d (p + j) <> None) ->
  exists m' W, spin_call (arith_of R) (spin_kernel Reconstruct mu plus) x o d p (N.of_nat n) m = Some m' /\
    (forall i, i < n -> reconstructs (arith_of R) mu plus (H i) (W i) /\ ferm_at m' d (p + 24 * i) (W i)) /\
    only m m' d p (24 * n).
Proof.
  intros R mu plus x o d p n m H XD O4 P4 N1 N2 HH HD.
  pose proof (sites_words m x o 12 n (fun i => fword (H i)) ltac:(lia) (fun i I => proj1 (half_words m x (o + 12 * i) (H i)) (HH i I))) as W1.
  pose proof (defined_words m (c0 R) d p (24 * n) HD) as W2.
  destruct (call_ok R Reconstruct mu plus x d XD n o p _ _ m O4 P4 N1 N2 W1 W2) as (m' & C & OK & ON).
  exists m', (fun i => recon R mu plus (H i)). split; [exact C|]. split; [|exact ON].
  intros i I. split; [apply recon_reconstructs|]. apply ferm_words. intros j J.
  etransitivity; [exact (OK i I j J)|]. refine (f_equal Some (recon_word R mu plus (H i) _ j _ J)).
  intros q Q. exact (site_word (fun i => fword (H i)) 12 i q Q).
Qed.

(** inlineAddSpinReconDirXY adds it to the destination. *)
Theorem C103_add : forall (R : cring) mu plus x o d p n (m : mem R) H D,
  x <> d -> o mod 4 = 0 -> p mod 4 = 0 -> 1 <= n -> (N.of_nat n <= 2 ^ 32)%N ->
  (forall i, i < n -> half_at m x (o + 12 * i) (H i)) ->
  (forall i, i < n -> ferm_at m d (p + 24 * i) (D i)) ->
  exists m' W, spin_call (arith_of R) (spin_kernel AddReconstruct mu plus) x o d p (N.of_nat n) m = Some m' /\
    (forall i, i < n -> reconstructs (arith_of R) mu plus (H i) (W i) /\
       ferm_at m' d (p + 24 * i) (fadd (arith_of R) (D i) (W i))) /\
    only m m' d p (24 * n).
Proof.
  intros R mu plus x o d p n m H D XD O4 P4 N1 N2 HH HD.
  pose proof (sites_words m x o 12 n (fun i => fword (H i)) ltac:(lia) (fun i I => proj1 (half_words m x (o + 12 * i) (H i)) (HH i I))) as W1.
  pose proof (sites_words m d p 24 n (fun i => fword (D i)) ltac:(lia) (fun i I => proj1 (ferm_words m d (p + 24 * i) (D i)) (HD i I))) as W2.
  destruct (call_ok R AddReconstruct mu plus x d XD n o p _ _ m O4 P4 N1 N2 W1 W2) as (m' & C & OK & ON).
  exists m', (fun i => recon R mu plus (H i)). split; [exact C|]. split; [|exact ON].
  intros i I. split; [apply recon_reconstructs|]. apply ferm_words. intros j J.
  etransitivity; [exact (OK i I j J)|]. f_equal. cbn [fin dsize ssize].
  assert (Q12 : forall q, q < 12 -> (fun q0 => fword (H ((12 * i + q0) / 12)) ((12 * i + q0) mod 12)) q = fword (H i) q).
  { intros q Q. exact (site_word (fun i => fword (H i)) 12 i q Q). }
  pose proof (site_word (fun i => fword (D i)) 24 i j J) as QD.
  assert (FA : fword (fadd (arith_of R) (D i) (recon R mu plus (H i))) j =
    a_add (arith_of R) (fword (D i) j) (fword (recon R mu plus (H i)) j)).
  { unfold fword, fadd, zadd. cbn. now destruct (Nat.odd j). }
  rewrite FA. destruct (Nat.ltb_spec j 12) as [L|L].
  - cbn [top dsize ssize]. replace (j <? 12) with true by (symmetry; apply Nat.ltb_lt; lia).
    rewrite QD. f_equal. rewrite (Q12 j L). apply fword_eq. intros s c Hs Hc.
    assert (s < 2) by (pose proof (Nat.div_lt_upper_bound j 6 2 ltac:(lia) ltac:(lia)); lia).
    unfold recon. now rewrite (proj2 (Nat.ltb_lt s 2)) by lia.
  - cbn [top dsize ssize]. replace (j <? 12) with false by (symmetry; apply Nat.ltb_ge; lia).
    rewrite QD. f_equal. apply (recon_word R mu plus (H i)); [exact Q12|exact J].
Qed.

Section Algebra.
  Variable R : cring.
  Let ar := arith_of R.
  Add Ring cring_ring_spin_a : (claw R).

  Ltac entry := cbn; unfold zneg; cbn; repeat match goal with |- context [?A ?s ?c] => is_var A; is_var c; destruct (A s c) end;
    cbn; f_equal; ring.

  (** The matrices of the specification are the generators of a Clifford algebra:
      gamma_mu gamma_nu + gamma_nu gamma_mu is 2 when mu = nu and 0 otherwise. *)
  Lemma clifford_law mu nu (A : fermion R) s c : s < 4 -> c < 3 ->
    zadd ar (gmul ar mu (gmul ar nu A) s c) (gmul ar nu (gmul ar mu A) s c) =
    (if match mu, nu with Dir0, Dir0 | Dir1, Dir1 | Dir2, Dir2 | Dir3, Dir3 => true | _, _ => false end
     then zadd ar (A s c) (A s c) else (a_ofZ ar 0, a_ofZ ar 0)).
  Proof.
    intros Hs Hc. destruct mu, nu; do 4 (destruct s as [|s]; [unfold gmul, zadd; entry|]); lia.
  Qed.

  (** There is one reconstruction of a half spinor. *)
  Lemma recon_unique mu plus (H W W' : fermion R) s c : reconstructs ar mu plus H W -> reconstructs ar mu plus H W' ->
    s < 4 -> c < 3 -> W s c = W' s c.
  Proof.
    intros [A1 A2] [B1 B2] Hs Hc. destruct (Nat.lt_ge_cases s 2) as [L|L].
    - rewrite A1, B1 by assumption. reflexivity.
    - rewrite A2, B2 by assumption. unfold gmul. pose proof (gamma_low mu s L Hs). rewrite A1, B1 by assumption. reflexivity.
  Qed.

  (** (1 +- gamma) A is one of its own upper components. *)
  Lemma one_pm_reconstructs mu plus (A : fermion R) : reconstructs ar mu plus (one_pm ar mu plus A) (one_pm ar mu plus A).
  Proof.
    split; [reflexivity|]. intros s c Hs Hc.
    destruct mu, plus; do 4 (destruct s as [|s]; [unfold one_pm, gmul, zadd; entry|]); lia.
  Qed.
End Algebra.

Theorem C103_clifford : forall (R : cring) mu nu (A : fermion R) s c, s < 4 -> c < 3 ->
  zadd (arith_of R) (gmul (arith_of R) mu (gmul (arith_of R) nu A) s c) (gmul (arith_of R) nu (gmul (arith_of R) mu A) s c) =
  (if match mu, nu with Dir0, Dir0 | Dir1, Dir1 | Dir2, Dir2 | Dir3, Dir3 => true | _, _ => false end
   then zadd (arith_of R) (A s c) (A s c) else (a_ofZ (arith_of R) 0, a_ofZ (arith_of R) 0)).
Proof. exact clifford_law. Qed.

(** A projection followed by the reconstruction of the same direction and sign leaves
    (1 +- gamma) times the spinor in the last array. *)
Theorem C103_round_trip : forall (R : cring) mu plus x o h q d p n (m : mem R) F,
  x <> h -> h <> d -> o mod 4 = 0 -> q mod 4 = 0 -> p mod 4 = 0 -> 1 <= n -> (N.of_nat n <= 2 ^ 32)%N ->
  (forall i, i < n -> ferm_at m x (o + 24 * i) (F i)) ->
  (forall j, j < 12 * n -> m h (q + j) <> None) ->
  (forall j, j < 24 * n -> m d (p + j) <> None) ->
  exists m1 m2,
    spin_call (arith_of R) (spin_kernel Project mu plus) x o h q (N.of_nat n) m = Some m1 /\
    spin_call (arith_of R) (spin_kernel Reconstruct mu plus) h q d p (N.of_nat n) m1 = Some m2 /\
    (forall i, i < n -> ferm_at m2 d (p + 24 * i) (one_pm (arith_of R) mu plus (F i))).
Proof.
  intros R mu plus x o h q d p n m F XH HD O4 Q4 P4 N1 N2 HF HH HDd.
  destruct (C103_project R mu plus x o h q n m F XH O4 Q4 N1 N2 HF HH) as (m1 & C1 & OK1 & ON1).
  assert (HD1 : forall j, j < 24 * n -> m1 d (p + j) <> None).
  { intros j J. rewrite ON1 by (intros [? _]; congruence). auto. }
  destruct (C103_reconstruct R mu plus h q d p n m1 _ HD Q4 P4 N1 N2 OK1 HD1) as (m2 & W & C2 & OK2 & _).
  exists m1, m2. split; [exact C1|]. split; [exact C2|]. intros i I. destruct (OK2 i I) as [RW FW].
  intros s c Hs Hc. rewrite <- (recon_unique R mu plus _ (W i) _ s c RW (one_pm_reconstructs R mu plus (F i)) Hs Hc).
  exact (FW s c Hs Hc).
Qed.

(** FALSE for no sites: n_vec is unsigned, so that the loop then runs 2^32-1 times.  Whatever
    the kernel, the values and the place in the arrays, a call with n_vec = 0 leaves the
    source's array, if it has less than 2^32 numbers. *)
Theorem C103_empty_refuted : forall (R : cring) op mu plus x o d p (m : mem R),
  (forall a, (2 ^ 32 <= N.of_nat a)%N -> m x a = None) ->
  spin_call (arith_of R) (spin_kernel op mu plus) x o d p 0 m = None.
Proof.
  intros R op mu plus x o d p m E. set (k := spin_kernel op mu plus).
  assert (K1 : forallb plain (k_pre k) = true /\ moves (k_pre k) = 0) by (unfold k; destruct op, mu, plus; split; reflexivity).
  assert (K2 : forallb plain (k_body k) = true /\ reads (k_body k) = true /\ 12 <= moves (k_body k)).
  { unfold k; destruct op, mu, plus; repeat split; cbn; lia. }
  destruct K1 as [A1 A2]. destruct K2 as (B1 & B2 & B3).
  unfold spin_call. destruct (run5 (arith_of R) (k_pre k) (start4 [(ps_src, (x, o)); (ps_dst, (d, p))] m)) as [s1|] eqn:E1; [|reflexivity].
  destruct (run_src (arith_of R) _ _ _ x o A1 E1 eq_refl) as (P1 & L1 & _).
  destruct (loop5 (arith_of R) (iterations 0) (k_body k) s1) as [s2|] eqn:E2; [exfalso|reflexivity].
  assert (I : N.of_nat (iterations 0) = 4294967295%N).
  { unfold iterations. rewrite N2Nat.id. reflexivity. }
  change (2 ^ 32)%N with 4294967296%N in E. generalize dependent (iterations 0). intros t E2 I.
  pose proof (loop_src (arith_of R) _ t _ _ x _ B1 B2 ltac:(lia) E2 P1) as H.
  apply L1 in H. cbn [start4 mem4] in H. apply H, E. rewrite A2.
  pose proof (Nat.mul_le_mono_l _ _ t B3). lia.
Qed.

(** ** The hypotheses are met *)
(** Two sites: spinors in array 0, half spinors in array 1, spinors in array 2. *)
Definition smem (b a : nat) : option Z :=
  match b with
  | 0 | 2 => if a <? 48 then Some (Z.of_nat (a * a + b) mod 11 - 4)%Z else None
  | 1 => if a <? 24 then Some (Z.of_nat (a * a) mod 7 - 3)%Z else None
  | _ => None
  end.
Definition sferm (b i s c : nat) : Z * Z :=
  let w j := match smem b j with Some v => v | None => 0%Z end in
  (w (24 * i + 6 * s + 2 * c), w (24 * i + 6 * s + 2 * c + 1)).
Definition shalf (i s c : nat) : Z * Z :=
  let w j := match smem 1 j with Some v => v | None => 0%Z end in
  (w (12 * i + 6 * s + 2 * c), w (12 * i + 6 * s + 2 * c + 1)).

Example C103_met : (forall i, i < 2 -> ferm_at smem 0 (0 + 24 * i) (sferm 0 i)) /\
  (forall i, i < 2 -> half_at smem 1 (0 + 12 * i) (shalf i)) /\
  (forall j, j < 12 * 2 -> smem 1 (0 + j) <> None) /\ (forall j, j < 24 * 2 -> smem 2 (0 + j) <> None).
Proof.
  assert (K0 : forall j, j < 48 -> smem 0 j <> None) by (intros j J; unfold smem; now rewrite (proj2 (Nat.ltb_lt j 48) J)).
  assert (K2 : forall j, j < 48 -> smem 2 j <> None) by (intros j J; unfold smem; now rewrite (proj2 (Nat.ltb_lt j 48) J)).
  assert (K1 : forall j, j < 24 -> smem 1 j <> None) by (intros j J; unfold smem; now rewrite (proj2 (Nat.ltb_lt j 24) J)).
  split; [|split; [|split]].
  - intros i I s c Hs Hc. unfold sferm. cbn [fst snd]. rewrite Nat.add_0_l.
    pose proof (K0 (24 * i + 6 * s + 2 * c) ltac:(lia)). pose proof (K0 (24 * i + 6 * s + 2 * c + 1) ltac:(lia)).
    destruct (smem 0 (24 * i + 6 * s + 2 * c)); [|congruence]. destruct (smem 0 (24 * i + 6 * s + 2 * c + 1)); [|congruence]. auto.
  - intros i I s c Hs Hc. unfold shalf. cbn [fst snd]. rewrite Nat.add_0_l.
    pose proof (K1 (12 * i + 6 * s + 2 * c) ltac:(lia)). pose proof (K1 (12 * i + 6 * s + 2 * c + 1) ltac:(lia)).
    destruct (smem 1 (12 * i + 6 * s + 2 * c)); [|congruence]. destruct (smem 1 (12 * i + 6 * s + 2 * c + 1)); [|congruence]. auto.
  - intros j J. apply K1. lia.
  - intros j J. apply K2. lia.
Qed.

(** Direction 1, minus: the first number of the second site's half spinor. *)
Example C103_project_case :
  match spin_call Zar (spin_kernel Project Dir1 false) 0 0 1 0 2 smem with
  | Some m' => m' 1 12 = Some (fst (sferm 0 1 0 0) + fst (sferm 0 1 3 0))%Z /\ m' 1 12 <> smem 1 12 /\ m' 0 30 = smem 0 30
  | None => False
  end.
Proof. vm_compute. repeat split; congruence. Qed.

(** Direction 0, plus: the lowest component is -i times the highest. *)
Example C103_reconstruct_case :
  match spin_call Zar (spin_kernel Reconstruct Dir0 true) 1 0 2 0 2 smem,
        spin_call Zar (spin_kernel AddReconstruct Dir0 true) 1 0 2 0 2 smem with
  | Some m', Some m'' =>
      m' 2 (24 + 18) = Some (snd (shalf 1 0 0)) /\ m' 2 (24 + 19) = Some (- fst (shalf 1 0 0))%Z /\
      m'' 2 (24 + 18) = Some (fst (sferm 2 1 3 0) + snd (shalf 1 0 0))%Z
  | _, _ => False
  end.
Proof. vm_compute. repeat split; reflexivity. Qed.

Example C103_empty_case : forall a, (2 ^ 32 <= N.of_nat a)%N -> smem 0 a = None.
Proof. intros a A. unfold smem. replace (a <? 48) with false by (symmetry; apply Nat.ltb_ge; lia). reflexivity. Qed.

Print Assumptions C103_project.
Print Assumptions C103_reconstruct.
Print Assumptions C103_add.
Print Assumptions C103_clifford.
Print Assumptions C103_round_trip.
Print Assumptions C103_empty_refuted.

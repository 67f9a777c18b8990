From Coq Require Import List Bool Arith NArith ZArith Lia Ring.
From Verif Require Import SseMachine SseSpec SseBlasSpec SseBlasProofs Sse4Machine SseSpinMachine SseSpinKernels SseSpinSpec SseSpinWindow SseSpinCases SseSpinProofs.
Import ListNotations.
Open Scope nat_scope.

(** ** Fields as words *)
Lemma half_words {V} (m : mem V) b o A : half_at m b o A <-> words_at m b o 12 (fword A).
Proof.
  split.
  - intros H j Hj. destruct (word_place j ltac:(lia)) as [s [c [Hs [Hc E]]]].
    destruct (H s c ltac:(lia) Hc) as [K1 K2]. destruct (fword_at A s c Hs Hc) as [W1 W2].
    destruct E as [-> | ->]; [rewrite W1, <- K1|rewrite W2, <- K2]; f_equal; lia.
  - intros H s c Hs Hc. destruct (fword_at A s c ltac:(lia) Hc) as [W1 W2].
    split; [rewrite <- W1, <- (H (6 * s + 2 * c)) by lia|rewrite <- W2, <- (H (6 * s + 2 * c + 1)) by lia]; f_equal; lia.
Qed.

(** [n] objects of [len] words. *)
Lemma sites_words {V} (m : mem V) b o len n (h : nat -> nat -> V) : 0 < len ->
  (forall i, i < n -> words_at m b (o + len * i) len (h i)) ->
  words_at m b o (len * n) (fun j => h (j / len) (j mod len)).
Proof.
  intros L H j J. pose proof (Nat.div_mod j len ltac:(lia)) as DM. pose proof (Nat.mod_upper_bound j len ltac:(lia)) as U.
  rewrite <- (H (j / len)); [f_equal; lia| |exact U]. apply Nat.div_lt_upper_bound; lia.
Qed.

Lemma site_word {V} (h : nat -> nat -> V) len i q : q < len ->
  h ((len * i + q) / len) ((len * i + q) mod len) = h i q.
Proof.
  intros Q. replace (len * i + q) with (q + i * len) by lia.
  rewrite Nat.div_add, Nat.mod_add, Nat.div_small, Nat.mod_small by lia. reflexivity.
Qed.

(** The words that are there. *)
Lemma defined_words {V} (m : mem V) (dflt : V) b o n : (forall j, j < n -> m b (o + j) <> None) ->
  words_at m b o n (fun j => match m b (o + j) with Some v => v | None => dflt end).
Proof. intros H j J. specialize (H j J). destruct (m b (o + j)); congruence. Qed.

Lemma words_more {V} (m : mem V) b o len f f' : (forall j, j < len -> f j = f' j) -> words_at m b o len f -> words_at m b o len f'.
Proof. intros E H j J. rewrite <- E by exact J. now apply H. Qed.

Section Fields.
  Variable R : cring.
  Let ar := arith_of R.
  Add Ring cring_ring_spinf : (claw R).

  Lemma gamma_col mu s : s < 4 -> fst (gamma mu s) < 4.
  Proof. intros H. destruct mu, s as [|[|[|[|s]]]]; cbn; lia. Qed.
  Lemma gamma_low mu s : 2 <= s -> s < 4 -> fst (gamma mu s) < 2.
  Proof. intros L H. destruct mu, s as [|[|[|[|s]]]]; cbn; lia. Qed.

  Lemma wferm_word (A : fermion R) (f : nat -> R) len s c : (forall q, q < len -> f q = fword A q) ->
    s < 4 -> c < 3 -> 6 * s + 6 <= len -> wferm f s c = A s c.
  Proof.
    intros F Hs Hc L. unfold wferm. destruct (fword_at A s c Hs Hc) as [W1 W2].
    rewrite !F by lia. rewrite W1, W2. now destruct (A s c).
  Qed.

  Lemma fword_eq (A B : fermion R) j : (forall s c, s < j / 6 + 1 -> c < 3 -> A s c = B s c) -> fword A j = fword B j.
  Proof.
    intros H. unfold fword. rewrite H; [reflexivity|lia|].
    pose proof (Nat.mod_upper_bound j 6 ltac:(lia)). apply Nat.div_lt_upper_bound; lia.
  Qed.

  Variables (mu : dirn) (plus : bool).

  Lemma project_word (A : fermion R) f j : (forall q, q < 24 -> f q = fword A q) -> j < 12 ->
    fword (one_pm ar mu plus (wferm f)) j = fword (one_pm ar mu plus A) j.
  Proof.
    intros F J. apply fword_eq. intros s c Hs Hc.
    assert (s < 2) by (pose proof (Nat.div_lt_upper_bound j 6 2 ltac:(lia) ltac:(lia)); lia).
    pose proof (gamma_col mu s ltac:(lia)).
    unfold one_pm, gmul. rewrite !(wferm_word A f 24) by (auto; lia). reflexivity.
  Qed.
  Lemma recon_word (A : fermion R) f j : (forall q, q < 12 -> f q = fword A q) -> j < 24 ->
    fword (recon R mu plus (wferm f)) j = fword (recon R mu plus A) j.
  Proof.
    intros F J. apply fword_eq. intros s c Hs Hc.
    assert (s < 4) by (pose proof (Nat.div_lt_upper_bound j 6 4 ltac:(lia) ltac:(lia)); lia).
    unfold recon, gmul. destruct (Nat.ltb_spec s 2) as [L|L].
    - rewrite (wferm_word A f 12) by (auto; lia). reflexivity.
    - pose proof (gamma_low mu s L ltac:(lia)). rewrite (wferm_word A f 12) by (auto; lia). reflexivity.
  Qed.

  Lemma recon_reconstructs (H : fermion R) : reconstructs ar mu plus H (recon R mu plus H).
  Proof.
    split.
    - intros s c Hs Hc. unfold recon. now rewrite (proj2 (Nat.ltb_lt s 2) Hs).
    - intros s c Hs Hc. destruct mu, plus; do 4 (destruct s as [|s]; [unfold recon, gmul; cbn; unfold zneg; destruct (H 0 c), (H 1 c); cbn; f_equal; ring|]); lia.
  Qed.
End Fields.

(** Half fermion times colour matrix over a subset. *)
From Coq Require Import ZArith String List Bool Lia Ring Permutation.
From Verif Require Import Base SetModel SetSpec EvalModel EvalSpec EvalProofs KernLang KernSpec KernSu3 KernSu3Spec KernSu3Ok.
From Verif Require Import FuseModel FuseSpec FuseSite FuseProofs HalfModel.
Import ListNotations.
Local Open Scope Z_scope.

Section Half.
  Context {R : Type} (rO rI : R) (radd rmul rsub : R -> R -> R) (ropp : R -> R).
  Context (RT : ring_theory rO rI radd rmul rsub ropp eq).
  Variable (d l r : ptr).
  Hypothesis (Al : apart l d) (Ar : apart r d).
  Notation value := (value rO).
  Notation half_spin := (half_spin rO radd rmul rsub ropp d l r).
  Notation half_site := (half_site rO radd rmul rsub ropp d l r).

  (** Spin [s] of site [i] of the product is right in [m'], with the operands as in [m]. *)
  Definition right_at (m m' : memory R) (i s : Z) : Prop :=
    is_image radd rmul rsub (mat (value m (forward l (18 * i)))) (num (value m (forward r (12 * i + 6 * s))))
      (num (value m' (forward d (12 * i + 6 * s)))).

  Definition there (V : nat) (m : memory R) : Prop :=
    has m d (12 * Z.of_nat V) /\ has m l (18 * Z.of_nat V) /\ has m r (12 * Z.of_nat V).

  Lemma has_fwd' (m : memory R) p len k n : 0 <= k -> k + n <= len -> has m p len -> has m (forward p k) n.
  Proof.
    intros T K H i Hi. specialize (H (k + i) ltac:(lia)). unfold cell, forward in *. cbn [fst snd].
    now rewrite <- Z.add_assoc.
  Qed.
  Lemma apart_disjoint p a q b k n : apart p q -> disjoint (forward p k) a (forward q n) b.
  Proof. intros A i j _ _ [E _]. now apply A. Qed.

  Lemma half_spin_ok V m i s : there V m -> 0 <= i < Z.of_nat V -> s = 0 \/ s = 1 ->
    exists m', half_spin i s m = Val m' /\ there V m' /\ right_at m m' i s /\
      (forall b o, ~ (b = fst d /\ snd d + (12 * i + 6 * s) <= o < snd d + (12 * i + 6 * s) + 6) -> m' b o = m b o).
  Proof.
    intros (Hd & Hl & Hr) Hi Hs.
    destruct (mult_su3_mat_vec_ok rO rI radd rmul rsub ropp RT m (forward l (18 * i)) (forward r (12 * i + 6 * s)) (forward d (12 * i + 6 * s)))
      as (m' & E & W & P & F).
    - eapply has_fwd'; [| |exact Hl]; lia.
    - eapply has_fwd'; [| |exact Hr]; lia.
    - eapply has_fwd'; [| |exact Hd]; lia.
    - now apply apart_disjoint.
    - now apply apart_disjoint.
    - exists m'. split; [exact E|].
      assert (K : forall p k, has m p k -> has m' p k).
      { intros p k H j Hj. specialize (H j Hj). unfold cell in *.
        destruct (Nat.eq_dec (fst p) (fst d)) as [Ep|Ep]; [|rewrite F; auto; cbn [forward fst snd]; intros [X _]; auto].
        destruct (Z_le_dec (snd d + (12 * i + 6 * s)) (snd p + j)) as [L1|L1]; [|rewrite F; auto; cbn [forward fst snd]; intros [_ X]; lia].
        destruct (Z_lt_dec (snd p + j) (snd d + (12 * i + 6 * s) + 6)) as [L2|L2]; [|rewrite F; auto; cbn [forward fst snd]; intros [_ X]; lia].
        specialize (W (snd p + j - (snd d + (12 * i + 6 * s))) ltac:(lia)). unfold cell, forward in W. cbn [fst snd] in W.
        rewrite Ep. replace (snd p + j) with (snd d + (12 * i + 6 * s) + (snd p + j - (snd d + (12 * i + 6 * s)))) by lia. exact W. }
      split; [repeat split; now apply K|]. split; [exact P|].
      intros b o N. apply F. cbn [forward fst snd]. exact N.
  Qed.

  (** The block of site [i]. *)
  Definition in_site (i : Z) (b : nat) (o : Z) : Prop := b = fst d /\ snd d + 12 * i <= o < snd d + 12 * i + 12.

  Lemma value_same m m' p : (forall b o, b <> fst d -> m' b o = m b o) -> apart p d -> forall k, value m' p k = value m p k.
  Proof. intros H A k. unfold KernSpec.value, cell. now rewrite H. Qed.

  Lemma right_at_operands m0 m m' i s : (forall b o, b <> fst d -> m b o = m0 b o) -> right_at m m' i s -> right_at m0 m' i s.
  Proof.
    intros S H c Hc. rewrite (H c Hc). unfold sum3, mat, num.
    repeat rewrite (value_same m0 m (forward l (18 * i)) S Al). repeat rewrite (value_same m0 m (forward r (12 * i + 6 * s)) S Ar).
    reflexivity.
  Qed.
  Lemma right_at_result m m' m'' i s :
    (forall o, snd d + (12 * i + 6 * s) <= o < snd d + (12 * i + 6 * s) + 6 -> m'' (fst d) o = m' (fst d) o) ->
    right_at m m' i s -> right_at m m'' i s.
  Proof.
    intros S H c Hc. rewrite <- (H c Hc). unfold num, KernSpec.value, cell, forward. cbn [fst snd].
    rewrite !S by lia. reflexivity.
  Qed.

  Lemma half_site_ok V m i : there V m -> (i < V)%nat ->
    exists m', half_site i m = Val m' /\ there V m' /\ right_at m m' (Z.of_nat i) 0 /\ right_at m m' (Z.of_nat i) 1 /\
      (forall b o, ~ in_site (Z.of_nat i) b o -> m' b o = m b o).
  Proof.
    intros T Hi. destruct (half_spin_ok V m (Z.of_nat i) 0 T ltac:(lia) (or_introl eq_refl)) as (m1 & E1 & T1 & R1 & F1).
    destruct (half_spin_ok V m1 (Z.of_nat i) 1 T1 ltac:(lia) (or_intror eq_refl)) as (m2 & E2 & T2 & R2 & F2).
    exists m2. unfold HalfModel.half_site. rewrite E1. cbn [bind]. split; [exact E2|]. split; [exact T2|].
    split.
    { eapply right_at_result; [|exact R1]. intros o Ho. apply F2. intros [_ X]. lia. }
    split.
    { eapply right_at_operands; [|exact R2]. intros b o N. apply F1. intros [X _]. auto. }
    intros b o N. rewrite F2, F1; auto; intros [X Y]; apply N; split; auto; lia.
  Qed.

  Notation in_order := (@FuseModel.in_order R).
  Lemma half_sites_ok V : forall sites m, there V m -> NoDup sites -> Forall (fun i => (i < V)%nat) sites ->
    exists m', in_order half_site sites m = Val m' /\
      (forall i, In i sites -> right_at m m' (Z.of_nat i) 0 /\ right_at m m' (Z.of_nat i) 1) /\
      (forall b o, (forall i, In i sites -> ~ in_site (Z.of_nat i) b o) -> m' b o = m b o).
  Proof.
    induction sites as [|i sites IH]; intros m T ND Bd.
    - exists m. split; [reflexivity|]. split; [intros ? []|auto].
    - inversion ND; subst. inversion Bd; subst.
      destruct (half_site_ok V m i T H3) as (m1 & E1 & T1 & A0 & A1 & F1).
      destruct (IH m1 T1 H2 H4) as (m2 & E2 & A2 & F2).
      exists m2. cbn [FuseModel.in_order]. rewrite E1. cbn [bind]. split; [exact E2|]. split.
      + intros k [->|I].
        * assert (S : forall o, snd d + 12 * Z.of_nat k <= o < snd d + 12 * Z.of_nat k + 12 -> m2 (fst d) o = m1 (fst d) o).
          { intros o Ho. apply F2. intros k' I' [_ X]. assert (k = k') by lia. subst. auto. }
          split; (eapply right_at_result; [|eassumption]); intros; apply S; lia.
        * assert (S : forall b o, b <> fst d -> m1 b o = m b o).
          { intros b o N. apply F1. intros [X _]. auto. }
          destruct (A2 k I) as [B0 B1]. split; eapply right_at_operands; eauto.
      + intros b o N. rewrite F2, F1; auto.
        * apply N. now left.
        * intros k I. apply N. now right.
  Qed.

  Lemma evaluate_half_ok V s threads calls m :
    there V m -> good_subset V s -> (0 < threads)%nat -> Permutation calls (dispatch threads (total s)) ->
    exists m', evaluate_half rO radd rmul rsub ropp d l r s calls m = Val m' /\
      (forall i, In i (s_table s) -> right_at m m' (Z.of_nat i) 0 /\ right_at m m' (Z.of_nat i) 1) /\
      (forall b o, (forall i, In i (s_table s) -> ~ in_site (Z.of_nat i) b o) -> m' b o = m b o).
  Proof.
    intros T (Fl & ND & Bd) Th Perm.
    pose proof (dispatch_iterations threads (total s) Th) as It.
    assert (PermI : Permutation (concat (map iterations calls)) (List.seq 0 (total s))).
    { rewrite <- It. rewrite <- !flat_map_concat_map. now apply Permutation_flat_map. }
    assert (Fin : forall sites, Permutation sites (s_table s) -> evaluate_half rO radd rmul rsub ropp d l r s calls m = in_order half_site sites m ->
      exists m', evaluate_half rO radd rmul rsub ropp d l r s calls m = Val m' /\
      (forall i, In i (s_table s) -> right_at m m' (Z.of_nat i) 0 /\ right_at m m' (Z.of_nat i) 1) /\
      (forall b o, (forall i, In i (s_table s) -> ~ in_site (Z.of_nat i) b o) -> m' b o = m b o)).
    { intros sites P E. rewrite E.
      destruct (half_sites_ok V sites m T) as (m' & E' & A & F).
      - eapply Permutation_NoDup; [symmetry; eassumption|assumption].
      - rewrite Forall_forall in *. intros i I. apply Bd. eapply Permutation_in; eassumption.
      - exists m'. split; [exact E'|]. split.
        + intros i I. apply A. eapply Permutation_in; [symmetry; eassumption|assumption].
        + intros b o N. apply F. intros i I. apply N. eapply Permutation_in; eassumption. }
    unfold evaluate_half in *. destruct (s_ordRep s) eqn:Or.
    - destruct Fl as (_ & Fl & _). destruct (Fl Or) as (a & b & Hab & Ea & Eb & Et).
      assert (Tot : (total s = S b - a)%nat) by (unfold total; rewrite Or, Ea, Eb; lia).
      apply (Fin (map (fun j => (j + a)%nat) (concat (map iterations calls)))).
      + rewrite PermI, Tot, Et. unfold run_of.
        assert (G : forall n k, map (fun j => (j + a)%nat) (List.seq k n) = List.seq (k + a) n).
        { induction n; intros k; [reflexivity|]. cbn. f_equal. now rewrite IHn. }
        rewrite G. reflexivity.
      + rewrite <- concat_map_map, map_map, <- (in_order_concat half_site (fun c => map (fun j => (j + a)%nat) (iterations c))).
        rewrite Ea, Nat2Z.id. clear. revert m. induction calls as [|[[lo hi] id] cs IH]; intros m; [reflexivity|].
        cbn [FuseModel.in_order iterations].
        assert (G : forall n k, map (fun j => (j + a)%nat) (List.seq k n) = List.seq (k + a) n).
        { induction n; intros k; [reflexivity|]. cbn. f_equal. now rewrite IHn. }
        rewrite G. destruct (in_order half_site (List.seq (lo + a) (hi - lo)) m); cbn [bind]; auto.
    - assert (Tot : total s = List.length (s_table s)) by (unfold total; now rewrite Or).
      set (site := fun j => nth j (s_table s) 0%nat).
      assert (InT : forall j, In j (concat (map iterations calls)) -> nth_error (s_table s) j = Some (site j)).
      { intros j I. apply nth_error_nth'. rewrite <- Tot.
        apply (Permutation_in j) in PermI; auto. apply in_seq in PermI. lia. }
      apply (Fin (map site (concat (map iterations calls)))).
      + rewrite PermI, Tot. assert (Em : map site (List.seq 0 (List.length (s_table s))) = s_table s); [|now rewrite Em].
        subst site.
        apply nth_ext with 0%nat 0%nat; [now rewrite map_length, seq_length|]. intros n Hn.
        rewrite map_length, seq_length in Hn.
        rewrite nth_indep with (d' := nth 0 (s_table s) 0%nat) by (now rewrite map_length, seq_length).
        rewrite (map_nth (fun j => nth j (s_table s) 0%nat)), seq_nth; auto.
      + assert (G : forall js m, (forall j, In j js -> nth_error (s_table s) j = Some (site j)) ->
          in_order (fun j m => bind (of_option (nth_error (s_table s) j)) (fun i => half_site i m)) js m = in_order half_site (map site js) m).
        { induction js as [|j js IH]; intros m0 H; [reflexivity|]. cbn [FuseModel.in_order map].
          rewrite (H j (or_introl eq_refl)). cbn [of_option bind].
          destruct (half_site (site j) m0); cbn [bind]; auto. apply IH. intros; apply H; now right. }
        rewrite <- G by exact InT.
        rewrite <- (in_order_concat (fun j m => bind (of_option (nth_error (s_table s) j)) (fun i => half_site i m)) iterations).
        clear. revert m. induction calls as [|[[lo hi] id] cs IH]; intros m; [reflexivity|].
        cbn [FuseModel.in_order].
        destruct (in_order _ (iterations (lo, hi, id)) m); cbn [bind]; auto.
  Qed.
End Half.

(** In place. *)
Section InPlace.
  Context {R : Type} (rO rI : R) (radd rmul rsub : R -> R -> R) (ropp : R -> R).
  Context (RT : ring_theory rO rI radd rmul rsub ropp eq).
  Add Ring Rr : RT.
  Lemma half_in_place :
  forall a b c : R,
  let m := fun (bl : nat) (o : Z) =>
    match bl with
    | 1%nat => if (0 <=? o) && (o <? 12)
               then Some (if o mod 6 =? 0 then a else if o mod 6 =? 2 then b else if o mod 6 =? 4 then c else rO) else None
    | 2%nat => if (0 <=? o) && (o <? 18) then Some (if (o =? 0) || (o =? 8) || (o =? 16) then rI else rO) else None
    | _ => None
    end in
  let h : ptr := (1%nat, 0) in let u : ptr := (2%nat, 0) in
  let s := {| s_ordRep := true; s_start := 0; s_end := 0; s_table := [0%nat] |} in
  exists m',
    evaluate_half rO radd rmul rsub ropp h u h s (dispatch 1 (total s)) m = Val m' /\
    map (value rO m h) [0; 1; 2; 3; 4; 5] = [a; rO; b; rO; c; rO] /\
    map (value rO m' h) [0; 1; 2; 3; 4; 5] = [a; rO; rO; rO; rO; rO] /\
    (is_image radd rmul rsub (mat (value rO m u)) (num (value rO m h)) (num (value rO m' h)) -> b = rO /\ c = rO).
Proof.
  intros a b c m h u s.
  destruct (evaluate_half rO radd rmul rsub ropp h u h s (dispatch 1 (total s)) m) as [m'| |] eqn:E.
  2,3: vm_compute in E; discriminate.
  exists m'. split; [reflexivity|]. split; [reflexivity|].
  assert (New : map (value rO m' h) [0; 1; 2; 3; 4; 5] = [a; rO; rO; rO; rO; rO]).
  { vm_compute in E. injection E as <-. vm_compute.
    repeat match goal with |- ?x :: _ = ?y :: _ => replace x with y by ring; apply f_equal end. reflexivity. }
  split; [exact New|]. intros Im. cbn [map] in New. injection New as _ _ N2 N3 N4 N5. split.
  - specialize (Im 1 ltac:(lia)).
    assert (Lhs : num (value rO m' h) 1 = (rO, rO)) by (unfold num; change (2 * 1) with 2; change (2 + 1) with 3; congruence).
    rewrite Lhs in Im. apply (f_equal fst) in Im. vm_compute in Im. rewrite Im. ring.
  - specialize (Im 2 ltac:(lia)).
    assert (Lhs : num (value rO m' h) 2 = (rO, rO)) by (unfold num; change (2 * 2) with 4; change (4 + 1) with 5; congruence).
    rewrite Lhs in Im. apply (f_equal fst) in Im. vm_compute in Im. rewrite Im. ring.
Qed.
End InPlace.

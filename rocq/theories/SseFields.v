From Coq Require Import List Bool Arith NArith ZArith Lia Permutation.
From Coq Require Import Ring Ring_theory InitialRing.
From Verif Require Import EvalModel EvalProofs SseMachine SseKernels SseSpec SseEval SseProofs SseMatrix.
Import ListNotations.
Open Scope nat_scope.

(** ** The sites visited by the calls *)
Definition visited (cs : list (nat * nat)) : list nat := flat_map (fun c => seq (fst c) (snd c)) cs.

Definition sites (s : subset) : list nat :=
  match s with Ordered a b => seq a (S b - a) | Listed tab => tab end.

Lemma seq_shift_by a lo n : seq (a + lo) n = map (fun j => a + j) (seq lo n).
Proof.
  revert lo. induction n as [|n IH]; intros lo; cbn; [reflexivity|]. f_equal.
  rewrite <- IH. f_equal. lia.
Qed.

Lemma map_nth_seq (tab : list nat) : map (fun j => nth j tab 0) (seq 0 (length tab)) = tab.
Proof.
  induction tab as [|x t IH]; [reflexivity|]. cbn [length seq map nth]. f_equal.
  rewrite <- seq_shift, map_map. exact IH.
Qed.

Lemma visited_calls threads s : 0 < threads -> visited (calls threads s) = sites s.
Proof.
  intros HT. unfold visited. destruct s as [a b|tab]; cbn [calls sites].
  - rewrite flat_map_concat_map, map_map.
    rewrite <- (Nat.add_0_r a) at 2. rewrite seq_shift_by.
    rewrite <- (dispatch_iterations threads (S b - a) HT), concat_map, map_map. f_equal.
    apply map_ext. intros [[lo hi] q]. cbn. apply seq_shift_by.
  - rewrite <- (map_nth_seq tab) at 2. rewrite <- (dispatch_iterations threads (length tab) HT).
    rewrite concat_map, map_map. rewrite (flat_map_concat_map _ (dispatch threads (length tab))).
    generalize (dispatch threads (length tab)). clear HT.
    induction l as [|[[lo hi] q] l IH]; [reflexivity|]. cbn [map concat]. rewrite flat_map_app, IH. f_equal.
    cbn [iterations]. induction (seq lo (hi - lo)) as [|j r IHr]; cbn; [reflexivity|]. now rewrite IHr.
Qed.

Lemma mats_ext {V} (m : mem V) b o n F G : (forall i, i < n -> words (F i) = words (G i)) ->
  mats_at m b o n F -> mats_at m b o n G.
Proof.
  intros E H i Hi. specialize (H i Hi). rewrite mat_words in *. intros j Hj.
  rewrite (H j Hj). f_equal. now rewrite (words_eq _ _ (E i Hi)).
Qed.

Lemma NoDup_app_inv {A} (l l' : list A) : NoDup (l ++ l') ->
  NoDup l /\ NoDup l' /\ (forall x, In x l -> In x l' -> False).
Proof.
  induction l as [|x l IH]; cbn; intros H.
  - split; [constructor|]. split; [exact H|]. tauto.
  - inversion H as [|? ? H1 H2]; subst. destruct (IH H2) as [A1 [A2 A3]]. split; [|split].
    + constructor; [|exact A1]. intros X. apply H1. apply in_or_app. now left.
    + exact A2.
    + intros y [->|Hy] Hy'; [|exact (A3 y Hy Hy')]. apply H1. apply in_or_app. now right.
Qed.

(** ** Calls one after the other *)
Section Calls.
  Context {V : Type} (ar : arith V) (k : kernel) (args : nat -> list (N * (nat * nat))).
  Variables (d vol : nat) (m0 : mem V) (f : nat -> matrix V -> matrix V).

  Definition state (m : mem V) (D : nat -> matrix V) : Prop :=
    mats_at m d 0 vol D /\ forall b o, b <> d \/ 18 * vol <= o -> m b o = m0 b o.

  Hypothesis Hcall : forall s n m D, (forall i, i < n -> s + i < vol) -> state m D ->
    exists m', call ar k (args s) n m = Some m' /\
      mats_at m' d (18 * s) n (fun i => f (s + i) (D (s + i))) /\ only m m' d (18 * s) (18 * n).

  Definition isin (i : nat) (l : list nat) : bool := existsb (Nat.eqb i) l.

  Lemma isin_in i l : isin i l = true <-> In i l.
  Proof.
    unfold isin. rewrite existsb_exists. split.
    - intros [x [H E]]. apply Nat.eqb_eq in E. now subst.
    - intros H. exists i. split; [exact H|apply Nat.eqb_refl].
  Qed.

  Lemma run_ok cs : NoDup (visited cs) -> (forall i, In i (visited cs) -> i < vol) ->
    forall m D, state m D -> exists m', run_calls ar k args cs m = Some m' /\
      state m' (fun i => if isin i (visited cs) then f i (D i) else D i).
  Proof.
    induction cs as [|[s n] cs IH]; intros Hnd Hin m D Hst.
    - exists m. split; [reflexivity|exact Hst].
    - cbn [visited flat_map fst snd] in Hnd, Hin. fold (visited cs) in Hnd, Hin.
      assert (Hvol : forall i, i < n -> s + i < vol).
      { intros i Hi. apply Hin. apply in_or_app. left. apply in_seq. lia. }
      destruct (Hcall s n m D Hvol Hst) as [m1 [E1 [E2 E3]]].
      set (D1 := fun i => if isin i (seq s n) then f i (D i) else D i).
      destruct (NoDup_app_inv _ _ Hnd) as [N1 [N2 N3]].
      destruct (IH N2 (fun i Hi => Hin i (in_or_app _ _ _ (or_intror Hi))) m1 D1) as [m2 [E4 E5]].
      { destruct Hst as [St1 St2]. split.
        - intros i Hi. unfold D1. destruct (isin i (seq s n)) eqn:I.
          + apply isin_in, in_seq in I. specialize (E2 (i - s) ltac:(lia)). cbn beta in E2.
            replace (s + (i - s)) with i in E2 by lia.
            replace (18 * s + 18 * (i - s)) with (0 + 18 * i) in E2 by lia. exact E2.
          + specialize (St1 i Hi). rewrite mat_words in *. intros j Hj. rewrite <- (St1 j Hj).
            apply E3. intros [_ X]. assert (isin i (seq s n) = true) by (apply isin_in, in_seq; lia).
            congruence.
        - intros b o Hbo. rewrite <- (St2 b o Hbo). apply E3. intros [-> X].
          destruct Hbo as [Hbo|Hbo]; [congruence|].
          assert (s + (n - 1) < vol) by (apply Hvol; lia). lia. }
      exists m2. cbn [run_calls]. rewrite E1. split; [exact E4|].
      destruct E5 as [E5 E6]. split; [|exact E6].
      apply (mats_ext _ _ _ _ _ _ ) with (2 := E5). intros i Hi. f_equal. unfold D1.
      cbn [visited flat_map fst snd]. fold (visited cs). unfold isin. rewrite existsb_app. fold (isin i (seq s n)).
      fold (isin i (visited cs)). destruct (isin i (seq s n)) eqn:I1, (isin i (visited cs)) eqn:I2; try reflexivity.
      exfalso. apply isin_in in I1, I2. exact (N3 i I1 I2).
  Qed.
End Calls.

Lemma sub_one {A} k (v : A) l : get k l = Some v -> sub [(k, v)] l.
Proof.
  intros H q u. cbn. destruct (N.eqb q k) eqn:E; [|discriminate]. apply N.eqb_eq in E. subst q.
  intros X. injection X as <-. exact H.
Qed.

(** ** Products of fields *)
Section Fields.
  Variable R : cring.
  Let ar := arith_of R.
  Add Ring cring_ring : (claw R).

  Lemma factor_ok g hl hr D L Q :
    words (product_of ar g hl hr (a_ofZ ar (factor g)) D L Q) =
    words (assigned ar g D (mmul ar (dag ar hl L) (dag ar hr Q))).
  Proof.
    unfold product_of, assigned. destruct g; [reflexivity| |];
      generalize (mmul ar (dag ar hl L) (dag ar hr Q)); intros X; unfold words; cbn;
      repeat (apply f_equal2; [ring|]); reflexivity.
  Qed.

  Lemma copy_ok g (D X : matrix R) :
    words (match g with OpEq => mscale ar (a_ofZ ar 1) X | OpAdd => madd ar D X | OpSub => msub ar D X end) =
    words (assigned ar g D X).
  Proof.
    destruct g; [|reflexivity|reflexivity]. unfold words; cbn.
    repeat (apply f_equal2; [ring|]); reflexivity.
  Qed.

  Lemma odd18 s : Nat.odd (18 * s) = false.
  Proof. rewrite Nat.odd_mul. reflexivity. Qed.

  Lemma kernel_check w g hl hr n par : (true = true -> par = []) -> 
    prod_check (k_body (product_kernel g hl hr w) n) par g hl hr 3 1 2 = true /\
    prod_check (k_body (product_kernel g hl hr w) n) par g hl hr 2 1 1 = true /\
    (hl = false -> prod_check (k_body (product_kernel g hl hr w) n) par g hl hr 2 0 1 = true).
  Proof.
    intros H. rewrite (H eq_refl). clear H.
    destruct w, g, hl, hr; (split; [vm_compute; reflexivity|]); (split; [vm_compute; reflexivity|]);
      intros X; try discriminate X; vm_compute; reflexivity.
  Qed.

  Lemma product_pre w g hl hr kb d l r s (m : mem R) a : m kb 0 = Some a ->
    exists st0, exec ar (k_pre (product_kernel g hl hr w)) (St [] (product_args g kb d l r s) m) = Some st0 /\
    sub (scalar_reg ar g a) (regs st0) /\
    (get p_m3_p (ptrs st0) = Some (d, 18 * s) /\ get p_m2_p (ptrs st0) = Some (l, 18 * s) /\
     get p_m1_p (ptrs st0) = Some (r, 18 * s)) /\
    memory st0 = m.
  Proof.
    intros Ha. unfold product_args. generalize (18 * s). intros o. destruct g.
    - destruct hl, hr; eexists; (split; [reflexivity|]); (split; [intros q v X; discriminate X|]); repeat split.
    - destruct hl, hr; eexists; (split; [lazy; rewrite Ha; lazy; reflexivity|]);
        (split; [apply sub_one; reflexivity|]); repeat split.
    - destruct hl, hr; eexists; (split; [lazy; rewrite Ha; lazy; reflexivity|]);
        (split; [apply sub_one; reflexivity|]); repeat split.
  Qed.

  (** After the constant has been put on the stack. *)
  Lemma mats_setm (m : mem R) kb v b o n F : b <> kb -> mats_at m b o n F -> mats_at (setm m kb 0 v) b o n F.
  Proof.
    intros H E i Hi. specialize (E i Hi). rewrite mat_words in *. intros j Hj. unfold setm.
    apply Nat.eqb_neq in H. rewrite H. exact (E j Hj).
  Qed.

  Lemma mats_sub (m : mem R) b vol F s n : (forall i, i < n -> s + i < vol) -> mats_at m b 0 vol F ->
    mats_at m b (18 * s) n (fun i => F (s + i)).
  Proof.
    intros H E i Hi. specialize (E (s + i) (H i Hi)).
    replace (18 * s + 18 * i) with (0 + 18 * (s + i)) by lia. exact E.
  Qed.

  Lemma mats_frame (m m' : mem R) b o n F : (forall o', m' b o' = m b o') -> mats_at m b o n F -> mats_at m' b o n F.
  Proof. intros H E i Hi r c Hr Hc. rewrite !H. exact (E i Hi r c Hr Hc). Qed.

  Lemma fields_product w g hl hr kb d l r vol m D L Q cs :
    d <> kb -> l <> kb -> r <> kb -> d <> r -> (hl = true -> d <> l) ->
    mats_at m d 0 vol D -> mats_at m l 0 vol L -> mats_at m r 0 vol Q ->
    NoDup (visited cs) -> (forall i, In i (visited cs) -> i < vol) ->
    exists m', evaluate_product ar w g hl hr kb d l r cs m = Some m' /\
      mats_at m' d 0 vol (fun i => if isin i (visited cs)
         then assigned ar g (D i) (mmul ar (dag ar hl (L i)) (dag ar hr (Q i))) else D i) /\
      (forall b o, b <> kb -> (b <> d \/ 18 * vol <= o) -> m' b o = m b o).
  Proof.
    intros Kd Kl Kr Hdr Hdl HD HL HQ Hnd Hvol.
    set (a := a_ofZ ar (factor g)). set (m0 := setm m kb 0 a).
    set (f := fun i X => product_of ar g hl hr a X (if l =? d then X else L i) (Q i)).
    destruct (run_ok ar (product_kernel g hl hr w) (product_args g kb d l r) d vol m0 f) with
      (cs := cs) (m := m0) (D := D) as [m' [E1 [E2 E3]]]; auto.
    - intros s n m1 D1 Hs [St1 St2].
      assert (Hk : m1 kb 0 = Some a).
      { rewrite St2 by (left; congruence). unfold m0, setm. now rewrite !Nat.eqb_refl. }
      assert (Hb : forall b F, b <> kb -> b <> d -> mats_at m b 0 vol F -> mats_at m1 b 0 vol F).
      { intros b F H1 H2 H. apply mats_frame with (m := m0).
        - intros o'. apply St2. now left.
        - apply mats_setm; assumption. }
      destruct (product_call R (product_kernel g hl hr w) g hl hr n (product_args g kb d l r s)
                  (d, 18 * s) (l, 18 * s) (r, 18 * s) a m1 true
                  (fun i => D1 (s + i)) (fun i => if l =? d then D1 (s + i) else L (s + i)) (fun i => Q (s + i)))
        as [m2 [F1 [F2 F3]]].
      + destruct g, hl, hr; reflexivity.
      + destruct g, hl, hr; reflexivity.
      + apply product_pre. exact Hk.
      + intros _. cbn [snd]. rewrite odd18. auto.
      + intros par H _. apply kernel_check. exact H.
      + unfold fine. cbn [fst snd]. destruct (Nat.eq_dec l d) as [->|N].
        * right. split; [reflexivity|]. split; [destruct hl; [exfalso; now apply Hdl|reflexivity]|].
          left. exact Hdr.
        * left. split; [left; congruence|]. split; [left; congruence|].
          destruct (Nat.eq_dec l r) as [->|N']; [left; reflexivity|right; left; exact N'].
      + apply mats_sub with (vol := vol); assumption.
      + cbn [fst snd]. destruct (l =? d) eqn:X.
        * apply Nat.eqb_eq in X. rewrite X. apply mats_sub with (vol := vol); assumption.
        * apply Nat.eqb_neq in X. apply mats_sub with (vol := vol); [assumption|]. apply Hb; assumption.
      + cbn [fst snd]. apply mats_sub with (vol := vol); [assumption|]. apply Hb; [exact Kr|congruence|exact HQ].
      + exists m2. split; [exact F1|]. split; [exact F2|exact F3].
    - split; [apply mats_setm; assumption|]. reflexivity.
    - exists m'. split; [exact E1|]. split.
      + apply (mats_ext _ _ _ _ _ _) with (2 := E2). intros i Hi. destruct (isin i (visited cs)); [|reflexivity].
        unfold f. rewrite <- factor_ok. fold a.
        destruct (l =? d) eqn:X; [|reflexivity]. apply Nat.eqb_eq in X. subst l.
        pose proof (words_eq _ _ (words_same _ _ _ _ _ (HD i Hi) (HL i Hi))) as W.
        rewrite (product_words ar g hl hr a (D i) (D i)), (product_words ar g hl hr a (D i) (L i)).
        rewrite <- W. reflexivity.
      + intros b o Hbk Hbo. rewrite (E3 b o Hbo). unfold m0, setm. apply Nat.eqb_neq in Hbk. now rewrite Hbk.
  Qed.
End Fields.

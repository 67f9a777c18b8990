From Coq Require Import List Bool Arith NArith ZArith Lia.
From Coq Require Import Ring_theory InitialRing Ring_polynom.
From Verif Require Import EvalModel SseMachine SseKernels SseSpec SseEval SseProofs SseMatrix SseFields SseElem.
Import ListNotations.
Open Scope nat_scope.

(** ** d = X, d += X, d -= X *)
Definition copy_word {V} (ar : arith V) (g : assign) (a z x : V) : V :=
  match g with OpEq => a_mul ar a x | OpAdd => a_add ar z x | OpSub => a_sub ar z x end.

Definition copy_mat {V} (ar : arith V) (g : assign) (a : V) (D X : matrix V) : matrix V :=
  match g with OpEq => mscale ar a X | OpAdd => madd ar D X | OpSub => msub ar D X end.

Lemma word_copy {V} (ar : arith V) g a (D X : matrix V) j : j < 18 ->
  word (copy_mat ar g a D X) j = copy_word ar g a (word D j) (word X j).
Proof.
  intros Hj. do 18 (destruct j as [|j]; [destruct g; reflexivity|]). lia.
Qed.

Lemma mats_words {V} (m : mem V) b o n F :
  mats_at m b o n F <-> words_at m b o (n * 18) (fun j => word (F (j / 18)) (j mod 18)).
Proof.
  split.
  - intros H j Hj. pose proof (Nat.div_mod j 18 ltac:(lia)) as DM. pose proof (Nat.mod_upper_bound j 18 ltac:(lia)) as U.
    assert (Hi : j / 18 < n) by (apply Nat.div_lt_upper_bound; lia).
    specialize (H _ Hi). rewrite mat_words in H. rewrite <- (H _ U). f_equal. lia.
  - intros H i Hi. rewrite mat_words. intros j Hj. rewrite <- Nat.add_assoc, (H (18 * i + j)) by lia.
    rewrite (Nat.mul_comm 18), Nat.div_add_l, Nat.div_small, Nat.add_0_r by lia.
    rewrite (Nat.add_comm (i * 18)), Nat.mod_add, Nat.mod_small by lia. reflexivity.
Qed.

Section Copy.
  Variable R : cring.
  Let ar := arith_of R.

  Lemma copy_call g kb d l s n (m : mem R) a D L :
    m kb 0 = Some a ->
    mats_at m d (18 * s) n D -> mats_at m l (18 * s) n L ->
    exists m', call ar (copy_kernel g) (copy_args g kb d l s) n m = Some m' /\
      mats_at m' d (18 * s) n (fun i => copy_mat ar g a (D i) (L i)) /\ only m m' d (18 * s) (18 * n).
  Proof.
    intros Ha HD HL. rewrite mats_words in HD, HL.
    destruct (elem_call R (copy_kernel g) n (copy_args g kb d l s) 18 n two_pats p_m2_p p_m1_p p_m1_p
                (d, 18 * s) (l, 18 * s) (l, 18 * s)
                (match g with OpEq => [a] | _ => [] end) m
                (match g with OpEq => [(r_scalar, splat ear (var 0))] | _ => [] end)
                (match g with OpEq => [(r_scalar, splat ar a)] | _ => [] end)
                (fun z x _ => copy_word ear g (var 0) z x) (fun z x _ => copy_word ar g a z x)
                (fun j => word (D (j / 18)) (j mod 18)) (fun j => word (L (j / 18)) (j mod 18))
                (fun j => word (L (j / 18)) (j mod 18))) as [m' [E1 [E2 E3]]]; auto.
    - split; [reflexivity|lia].
    - destruct g; reflexivity.
    - destruct g; reflexivity.
    - unfold copy_args. generalize (18 * s). intros o. destruct g; eexists.
      + split; [lazy; rewrite Ha; lazy; reflexivity|]. split; [apply sub_one; reflexivity|]. repeat split.
      + split; [lazy; reflexivity|]. split; [intros q v X; discriminate X|]. repeat split.
      + split; [lazy; reflexivity|]. split; [intros q v X; discriminate X|]. repeat split.
    - cbn [snd]. rewrite odd18. auto.
    - intros nw cx cy [H|[H|[]]]; injection H as <- <- <-; destruct g; vm_compute; reflexivity.
    - intros nw cx cy F [H|[H|[]]]; injection H as <- <- <-; destruct g;
        (split; [reflexivity|split; reflexivity]).
    - unfold same_or_apart. cbn [fst snd]. destruct (Nat.eq_dec d l) as [->|N]; [left; reflexivity|right; left; exact N].
    - unfold same_or_apart. cbn [fst snd]. destruct (Nat.eq_dec d l) as [->|N]; [left; reflexivity|right; left; exact N].
    - left. reflexivity.
    - exists m'. split; [exact E1|]. cbn [fst snd] in E2, E3. rewrite (Nat.mul_comm 18 n).
      split; [|exact E3]. apply mats_words. intros j Hj. rewrite (E2 j Hj). f_equal. symmetry.
      apply word_copy. apply Nat.mod_upper_bound. lia.
  Qed.

  Lemma copy_mat_ok g (D X : matrix R) :
    words (copy_mat ar g (a_ofZ ar 1) D X) = words (assigned ar g D X).
  Proof. apply copy_ok. Qed.

  Lemma fields_copy g kb d l vol m D L cs :
    d <> kb -> l <> kb -> mats_at m d 0 vol D -> mats_at m l 0 vol L ->
    NoDup (visited cs) -> (forall i, In i (visited cs) -> i < vol) ->
    exists m', evaluate_copy ar g kb d l cs m = Some m' /\
      mats_at m' d 0 vol (fun i => if isin i (visited cs) then assigned ar g (D i) (L i) else D i) /\
      (forall b o, b <> kb -> (b <> d \/ 18 * vol <= o) -> m' b o = m b o).
  Proof.
    intros Kd Kl HD HL Hnd Hvol.
    set (a := a_ofZ ar 1). set (m0 := setm m kb 0 a).
    set (f := fun i X => copy_mat ar g a X (if l =? d then X else L i)).
    destruct (run_ok ar (copy_kernel g) (copy_args g kb d l) d vol m0 f) with
      (cs := cs) (m := m0) (D := D) as [m' [E1 [E2 E3]]]; auto.
    - intros s n m1 D1 Hs [St1 St2].
      assert (Hk : m1 kb 0 = Some a).
      { rewrite St2 by (left; congruence). unfold m0, setm. now rewrite !Nat.eqb_refl. }
      destruct (copy_call g kb d l s n m1 a (fun i => D1 (s + i))
                  (fun i => if l =? d then D1 (s + i) else L (s + i))) as [m2 [F1 [F2 F3]]].
      + exact Hk.
      + apply mats_sub with (vol := vol); assumption.
      + destruct (l =? d) eqn:X.
        * apply Nat.eqb_eq in X. rewrite X. apply mats_sub with (vol := vol); assumption.
        * apply Nat.eqb_neq in X. apply mats_sub with (vol := vol); [assumption|].
          apply mats_frame with (m := m0); [intros o'; apply St2; now left|]. apply mats_setm; assumption.
      + exists m2. split; [exact F1|]. split; [exact F2|exact F3].
    - split; [apply mats_setm; assumption|]. reflexivity.
    - exists m'. split; [exact E1|]. split.
      + apply (mats_ext _ _ _ _ _ _) with (2 := E2). intros i Hi. destruct (isin i (visited cs)); [|reflexivity].
        unfold f. destruct (l =? d) eqn:X; [|apply copy_mat_ok]. apply Nat.eqb_eq in X. subst l.
        pose proof (words_same _ _ _ _ _ (HD i Hi) (HL i Hi)) as W.
        rewrite <- (copy_mat_ok g (D i) (L i)). fold a.
        assert (K : forall A B, words (copy_mat ar g a A B) = words (copy_mat ar g a (unword (word A)) (unword (word B))))
          by (intros; destruct g; reflexivity).
        rewrite (K (D i) (D i)), (K (D i) (L i)), <- (words_eq _ _ W). reflexivity.
      + intros b o Hbk Hbo. rewrite (E3 b o Hbo). unfold m0, setm. apply Nat.eqb_neq in Hbk. now rewrite Hbk.
  Qed.

  (** ** Products of single matrices *)
  Lemma site_check w hl hr n par : length par = 3 ->
    prod_check (k_body (site_kernel hl hr w) n) par OpEq hl hr 3 1 2 = true /\
    prod_check (k_body (site_kernel hl hr w) n) par OpEq hl hr 2 1 1 = true /\
    (hl = false -> prod_check (k_body (site_kernel hl hr w) n) par OpEq hl hr 2 0 1 = true).
  Proof.
    intros H. destruct par as [|b0 [|b1 [|b2 [|]]]]; try discriminate H.
    destruct b0, b1, b2, w, hl, hr; (split; [vm_compute; reflexivity|]); (split; [vm_compute; reflexivity|]);
      intros X; try discriminate X; vm_compute; reflexivity.
  Qed.

  Lemma site_ok w hl hr d l r (m : mem R) D L Q :
    apart (fst d) (snd d) (fst l) (snd l) 18 -> apart (fst d) (snd d) (fst r) (snd r) 18 ->
    l = r \/ apart (fst l) (snd l) (fst r) (snd r) 18 ->
    mat_at m (fst d) (snd d) D -> mat_at m (fst l) (snd l) L -> mat_at m (fst r) (snd r) Q ->
    exists m', site_product ar w hl hr d l r m = Some m' /\
      mat_at m' (fst d) (snd d) (mmul ar (dag ar hl L) (dag ar hr Q)) /\ only m m' (fst d) (snd d) 18.
  Proof.
    intros A1 A2 A3 HD HL HQ.
    assert (one : forall b o A, mat_at m b o A -> mats_at m b o 1 (fun _ => A)).
    { intros b o A H i Hi. replace (o + 18 * i) with o by lia. exact H. }
    destruct (product_call R (site_kernel hl hr w) OpEq hl hr 1 [(p_m3, d); (p_m2, l); (p_m1, r)] d l r
                (c0 R) m false (fun _ => D) (fun _ => L) (fun _ => Q)) as [m' [E1 [E2 E3]]]; auto.
    - destruct hl, hr; reflexivity.
    - destruct hl, hr; reflexivity.
    - destruct hl, hr; eexists; (split; [lazy; reflexivity|]); (split; [intros q v X; discriminate X|]); repeat split.
    - discriminate.
    - intros par _ H. apply site_check. auto.
    - left. auto.
    - exists m'. split; [exact E1|]. split; [|exact E3]. specialize (E2 0 ltac:(lia)).
      replace (snd d + 18 * 0) with (snd d) in E2 by lia. exact E2.
  Qed.
End Copy.

From Coq Require Import List Bool Arith NArith ZArith Lia.
From Coq Require Import Ring Ring_theory InitialRing.
From Verif Require Import SseMachine SseSpec SseEval SseFields SseBlasSpec SseBlasProofs SseBlasReduce
  Sse4Machine Sse4Kernels Sse4Eval Sse4Proofs.
Import ListNotations.
Open Scope nat_scope.

(** ** The instructions, one at a time *)
Section Steps.
  Context {V : Type} (ar : arith V).
  Implicit Types (rg : N -> option (list V)) (m : mem V).

  Lemma s_load d p k l rg pt m b q v : pt p = Some (b, q) -> load4 m b (q + k) = Some v ->
    run4 ar (LoadPs d p k :: l) (St4 rg pt m) = run4 ar l (St4 (set4 rg d v) pt m).
  Proof. intros H E. cbn [run4 exec4 regs4 ptrs4 mem4]. rewrite H, E. reflexivity. Qed.
  Lemma s_bump p k l rg pt m b q : pt p = Some (b, q) ->
    run4 ar (Bump4 p k :: l) (St4 rg pt m) = run4 ar l (St4 rg (set4 pt p (b, q + k)) m).
  Proof. intros H. cbn [run4 exec4 regs4 ptrs4 mem4]. rewrite H. reflexivity. Qed.
  Lemma s_loads d p l rg pt m b q v : pt p = Some (b, q) -> m b q = Some v ->
    run4 ar (LoadS d p :: l) (St4 rg pt m) = run4 ar l (St4 (set4 rg d [v]) (set4 pt p (b, q + 1)) m).
  Proof. intros H E. cbn [run4 exec4 regs4 ptrs4 mem4]. rewrite H, E. reflexivity. Qed.
  Lemma s_zeropd d l rg pt m :
    run4 ar (ZeroPd d :: l) (St4 rg pt m) = run4 ar l (St4 (set4 rg d [a_ofZ ar 0; a_ofZ ar 0]) pt m).
  Proof. reflexivity. Qed.
  Lemma s_zeros d l rg pt m :
    run4 ar (ZeroS d :: l) (St4 rg pt m) = run4 ar l (St4 (set4 rg d [a_ofZ ar 0]) pt m).
  Proof. reflexivity. Qed.
  Lemma s_mul d a b l rg pt m u v w : rg a = Some u -> rg b = Some v -> lanes (a_mul ar) u v = Some w ->
    run4 ar (MulV d a b :: l) (St4 rg pt m) = run4 ar l (St4 (set4 rg d w) pt m).
  Proof. intros H1 H2 E. cbn [run4 exec4 regs4 ptrs4 mem4]. rewrite H1, H2, E. reflexivity. Qed.
  Lemma s_add d a b l rg pt m u v w : rg a = Some u -> rg b = Some v -> lanes (a_add ar) u v = Some w ->
    run4 ar (AddV d a b :: l) (St4 rg pt m) = run4 ar l (St4 (set4 rg d w) pt m).
  Proof. intros H1 H2 E. cbn [run4 exec4 regs4 ptrs4 mem4]. rewrite H1, H2, E. reflexivity. Qed.
  Lemma s_sub d a b l rg pt m u v w : rg a = Some u -> rg b = Some v -> lanes (a_sub ar) u v = Some w ->
    run4 ar (SubV d a b :: l) (St4 rg pt m) = run4 ar l (St4 (set4 rg d w) pt m).
  Proof. intros H1 H2 E. cbn [run4 exec4 regs4 ptrs4 mem4]. rewrite H1, H2, E. reflexivity. Qed.
  Lemma s_shufps d a b k l rg pt m u v w : rg a = Some u -> rg b = Some v -> shuf_ps u v k = Some w ->
    run4 ar (ShufPs d a b k :: l) (St4 rg pt m) = run4 ar l (St4 (set4 rg d w) pt m).
  Proof. intros H1 H2 E. cbn [run4 exec4 regs4 ptrs4 mem4]. rewrite H1, H2, E. reflexivity. Qed.
  Lemma s_shufpd d a b k l rg pt m u v w : rg a = Some u -> rg b = Some v -> shuf_pd u v k = Some w ->
    run4 ar (ShufPd d a b k :: l) (St4 rg pt m) = run4 ar l (St4 (set4 rg d w) pt m).
  Proof. intros H1 H2 E. cbn [run4 exec4 regs4 ptrs4 mem4]. rewrite H1, H2, E. reflexivity. Qed.
  Lemma s_cvt d a l rg pt m u w : rg a = Some u -> cvt u = Some w ->
    run4 ar (CvtPsPd d a :: l) (St4 rg pt m) = run4 ar l (St4 (set4 rg d w) pt m).
  Proof. intros H1 E. cbn [run4 exec4 regs4 ptrs4 mem4]. rewrite H1, E. reflexivity. Qed.
End Steps.

Ltac look := first [eassumption | reflexivity | (unfold set4; cbn; eassumption)].
Ltac instr hload hcell :=
  match goal with
  | |- context [run4 _ (LoadPs _ _ _ :: _) _] => erewrite s_load; [|look|hload]
  | |- context [run4 _ (Bump4 _ _ :: _) _] => erewrite s_bump; [|look]
  | |- context [run4 _ (LoadS _ _ :: _) _] => erewrite s_loads; [|look|hcell]
  | |- context [run4 _ (ZeroPd _ :: _) _] => rewrite s_zeropd
  | |- context [run4 _ (ZeroS _ :: _) _] => rewrite s_zeros
  | |- context [run4 _ (MulV _ _ _ :: _) _] => erewrite s_mul; [|look|look|reflexivity]
  | |- context [run4 _ (AddV _ _ _ :: _) _] => erewrite s_add; [|look|look|reflexivity]
  | |- context [run4 _ (SubV _ _ _ :: _) _] => erewrite s_sub; [|look|look|reflexivity]
  | |- context [run4 _ (ShufPs _ _ _ _ :: _) _] => erewrite s_shufps; [|look|look|reflexivity]
  | |- context [run4 _ (ShufPd _ _ _ _ :: _) _] => erewrite s_shufpd; [|look|look|reflexivity]
  | |- context [run4 _ (CvtPsPd _ _ :: _) _] => erewrite s_cvt; [|look|reflexivity]
  end.

Section Sums4.
  Variable R : cring.
  Let ar := arith_of R.
  Add Ring cring_ring_5 : (claw R).
  Notation "u +r v" := (a_add ar u v) (at level 50, left associativity).
  Notation "u *r v" := (a_mul ar u v) (at level 40, left associativity).
  Notation "u -r v" := (a_sub ar u v) (at level 50, left associativity).

  (** Sum of the squares of [n] numbers from [o] on. *)
  Definition squares (f : nat -> R) (o n : nat) : R := total ar n (fun j => f (o + j) *r f (o + j)).

  Lemma squares_app f j a b : squares f j (a + b) = squares f j a +r squares f (j + a) b.
  Proof.
    unfold squares. etransitivity; [exact (total_add R a b _)|]. f_equal. apply (total_ext R).
    intros i _. rewrite Nat.add_assoc. reflexivity.
  Qed.

  Definition in_sq (rg : N -> option (list R)) (pt : N -> option (nat * nat)) (x rb ro o : nat) (f : nat -> R) (j : nat) (acc : R) : Prop :=
    exists u0 u1 w0 w1, rg r4_vsum = Some [u0; u1] /\ rg r4_vsum2 = Some [w0; w1] /\
      rg r4_tmp1 = Some [f j; f (j + 1); f (j + 2); f (j + 3)] /\
      pt p4_num = Some (x, o + j + 4) /\ pt p4_Out = Some (rb, ro) /\
      u0 +r u1 +r w0 +r w1 = acc.

  Section Sq.
    Variables (m : mem R) (x rb ro o n : nat) (f : nat -> R).
    Hypothesis Ho : o mod 4 = 0.
    Hypothesis Hf : words_at m x o n f.

    Lemma sq_load q j : q = o + j -> j mod 4 = 0 -> j + 4 <= n -> load4 m x q = Some [f j; f (j + 1); f (j + 2); f (j + 3)].
    Proof.
      intros -> A L. unfold load4. rewrite <- Nat.add_mod_idemp_l, Ho by lia. cbn [Nat.add]. rewrite A. cbn [Nat.eqb].
      rewrite (Hf j), <- !Nat.add_assoc, (Hf (j + 1)), (Hf (j + 2)), (Hf (j + 3)) by lia. reflexivity.
    Qed.

    Lemma mod_plus j k : j mod 4 = 0 -> k mod 4 = 0 -> (j + k) mod 4 = 0.
    Proof. intros A B. rewrite <- Nat.add_mod_idemp_l, A by lia. exact B. Qed.

    Ltac ld' j k := rewrite (sq_load _ (j + k)); [reflexivity|lia|apply mod_plus; [assumption|reflexivity]|lia].
    Ltac lds j := first [ld' j 4 | ld' j 8 | ld' j 12 | ld' j 16 | ld' j 20 | ld' j 24].
    Ltac lds0 := fail.

    Lemma sq_body rg pt j acc : j mod 4 = 0 -> j + 28 <= n -> in_sq rg pt x rb ro o f j acc ->
      exists rg' pt', run4 ar sumsq_body (St4 rg pt m) = Some (St4 rg' pt' m) /\
        in_sq rg' pt' x rb ro o f (j + 24) (acc +r squares f j 24).
    Proof.
      intros Aj Lj (u0 & u1 & w0 & w1 & H1 & H2 & H3 & H4 & H5 & H6). unfold sumsq_body.
      repeat (instr ltac:(lds j) lds0). cbn [run4].
      eexists. eexists. split; [reflexivity|].
      eexists. eexists. eexists. eexists.
      split; [reflexivity|]. split; [reflexivity|]. split.
      { unfold set4. cbn [N.eqb Pos.eqb r4_tmp1 r4_tmp2 r4_vsum r4_vsum2 r4_dat_sq r4_dat_sq2 r4_lower_2 r4_upper_2]. reflexivity. }
      split. { unfold set4. cbn [N.eqb Pos.eqb p4_num]. do 2 f_equal; lia. }
      split. { unfold set4. cbn [N.eqb Pos.eqb p4_num p4_Out]. exact H5. }
      rewrite <- H6. unfold squares. cbn [total]. rewrite <- !Nat.add_assoc. cbn [Nat.add].
      cbn. rewrite ?Nat.add_0_r. ring.
    Qed.

    Lemma sq_last rg pt j acc : j mod 4 = 0 -> j + 24 <= n -> in_sq rg pt x rb ro o f j acc ->
      exists rg' pt', run4 ar sumsq_last (St4 rg pt m) = Some (St4 rg' pt' m) /\
        exists u0 u1 w0 w1, rg' r4_vsum = Some [u0; u1] /\ rg' r4_vsum2 = Some [w0; w1] /\
          pt' p4_Out = Some (rb, ro) /\ u0 +r u1 +r w0 +r w1 = acc +r squares f j 24.
    Proof.
      intros Aj Lj (u0 & u1 & w0 & w1 & H1 & H2 & H3 & H4 & H5 & H6). unfold sumsq_last.
      repeat (instr ltac:(lds j) lds0). cbn [run4].
      eexists. eexists. split; [reflexivity|].
      eexists. eexists. eexists. eexists.
      split; [reflexivity|]. split; [reflexivity|].
      split. { unfold set4. cbn [N.eqb Pos.eqb p4_num p4_Out]. exact H5. }
      rewrite <- H6. unfold squares. cbn [total]. rewrite <- !Nat.add_assoc. cbn [Nat.add].
      cbn. rewrite ?Nat.add_0_r. ring.
    Qed.

    Lemma sq_loop k : forall rg pt j acc, j mod 4 = 0 -> j + 24 * k + 4 <= n -> in_sq rg pt x rb ro o f j acc ->
      exists rg' pt', loop4 ar k sumsq_body (St4 rg pt m) = Some (St4 rg' pt' m) /\
        in_sq rg' pt' x rb ro o f (j + 24 * k) (acc +r squares f j (24 * k)).
    Proof.
      induction k as [|k IH]; intros rg pt j acc Aj Lj H.
      - exists rg, pt. split; [reflexivity|]. rewrite Nat.mul_0_r, Nat.add_0_r. unfold squares. cbn [total].
        replace (acc +r a_ofZ ar 0) with acc by (cbn; ring). exact H.
      - destruct (sq_body rg pt j acc Aj ltac:(lia) H) as (rg1 & pt1 & E1 & H1).
        destruct (IH rg1 pt1 (j + 24) _ ltac:(apply mod_plus; [exact Aj|reflexivity]) ltac:(lia) H1) as (rg2 & pt2 & E2 & H2).
        exists rg2, pt2. cbn [loop4]. rewrite E1. split; [exact E2|].
        replace (j + 24 * S k) with (j + 24 + 24 * k) by lia.
        replace (acc +r squares f j (24 * S k)) with (acc +r squares f j 24 +r squares f (j + 24) (24 * k)); [exact H2|].
        replace (24 * S k) with (24 + 24 * k) by lia. rewrite squares_app. cbn. ring.
    Qed.

    Lemma sq_call args k : args = [(p4_Out, (rb, ro)); (p4_num, (x, o))] -> n = 24 * S k -> m rb ro <> None ->
      exists s', local_sumsq ar args (S k) m = Some s' /\
        mem4 s' rb ro = Some (squares f 0 n) /\ forall b q, ~ (b = rb /\ q = ro) -> mem4 s' b q = m b q.
    Proof.
      intros -> Hn Hm. unfold local_sumsq.
      assert (E0 : exists rg pt, run4 ar sumsq_pre (start4 [(p4_Out, (rb, ro)); (p4_num, (x, o))] m) = Some (St4 rg pt m) /\
                in_sq rg pt x rb ro o f 0 (a_ofZ ar 0)).
      { unfold sumsq_pre, start4. cbn [fold_left fst snd fold_right].
        repeat (instr ltac:(rewrite (sq_load _ 0); [reflexivity|lia|reflexivity|lia]) lds0). cbn [run4].
        eexists. eexists. split; [reflexivity|]. eexists. eexists. eexists. eexists.
        split; [reflexivity|]. split; [reflexivity|]. split; [reflexivity|].
        split. { unfold set4. cbn. do 2 f_equal; lia. }
        split; [reflexivity|]. cbn. ring. }
      destruct E0 as (rg0 & pt0 & E0 & H0). rewrite E0. cbn [then4].
      destruct (sq_loop (S k - 1) rg0 pt0 0 _ eq_refl ltac:(lia) H0) as (rg1 & pt1 & E1 & H1). rewrite E1. cbn [then4].
      destruct (sq_last rg1 pt1 (0 + 24 * (S k - 1)) _ ltac:(cbn [Nat.add]; replace (24 * (S k - 1)) with (6 * (S k - 1) * 4) by lia; apply Nat.mod_mul; lia) ltac:(lia) H1)
        as (rg2 & pt2 & E2 & u0 & u1 & w0 & w1 & K1 & K2 & K3 & K4).
      rewrite E2. cbn [then4]. unfold sumsq_tail.
      do 3 (instr lds0 lds0). cbn [run4 exec4 regs4 ptrs4 mem4]. rewrite K3.
      unfold set4 at 1. cbn [N.eqb Pos.eqb r4_upper_2].
      destruct (m rb ro) as [v|] eqn:Ev; [clear Hm|congruence].
      eexists. split; [reflexivity|]. cbn [mem4]. split.
      - unfold setm. rewrite !Nat.eqb_refl. cbn [andb]. f_equal.
        replace n with (24 * (S k - 1) + 24) by lia. rewrite squares_app. cbn [Nat.add] in K4 |- *.
        transitivity (u0 +r u1 +r w0 +r w1); [cbn; ring|]. rewrite K4. cbn. ring.
      - intros b q Nq. unfold setm. destruct (b =? rb) eqn:B; [|reflexivity]. destruct (q =? ro) eqn:Q; [|reflexivity].
        apply Nat.eqb_eq in B, Q. tauto.
    Qed.
  End Sq.

  (** Sums of conj(f) g over three complex numbers from [o] on. *)
  Definition dot3 (part : nat) (f g : nat -> R) (o : nat) : R :=
    total ar 3 (fun c => if part =? 0
      then f (o + 2 * c) *r g (o + 2 * c) +r f (o + 2 * c + 1) *r g (o + 2 * c + 1)
      else f (o + 2 * c) *r g (o + 2 * c + 1) -r f (o + 2 * c + 1) *r g (o + 2 * c)).
  Definition dots (part : nat) (f g : nat -> R) (o n : nat) : R := total ar n (fun t => dot3 part f g (o + 6 * t)).

  Lemma dots_app p f g j a b : dots p f g j (a + b) = dots p f g j a +r dots p f g (j + 6 * a) b.
  Proof.
    unfold dots. etransitivity; [exact (total_add R a b _)|]. f_equal. apply (total_ext R).
    intros i _. f_equal. lia.
  Qed.

  Section Dot.
    Variables (m : mem R) (x y rb ro o n : nat) (f g : nat -> R).
    Hypothesis Hf : words_at m x o n f.
    Hypothesis Hg : words_at m y o n g.

    Definition in_dot (rg : N -> option (list R)) (pt : N -> option (nat * nat)) (j : nat) (re im : R) : Prop :=
      rg r4_result_re = Some [re] /\ rg r4_result_im = Some [im] /\
      rg r4_v1_0r = Some [f j] /\ rg r4_v1_0i = Some [f (j + 1)] /\ rg r4_v1_1r = Some [f (j + 2)] /\
      rg r4_v2_0r = Some [g j] /\ rg r4_v2_0i = Some [g (j + 1)] /\ rg r4_v2_1r = Some [g (j + 2)] /\
      pt p4_V1 = Some (x, o + j + 3) /\ pt p4_V2 = Some (y, o + j + 3) /\
      pt p4_Out_re = Some (rb, ro) /\ pt p4_Out_im = Some (rb, ro + 1).

    Lemma xcell q j : q = o + j -> j < n -> m x q = Some (f j).
    Proof. intros -> H. apply Hf, H. Qed.
    Lemma ycell q j : q = o + j -> j < n -> m y q = Some (g j).
    Proof. intros -> H. apply Hg, H. Qed.

    Ltac none := fail.
    Ltac ce j k := first [rewrite (xcell _ (j + k)); [reflexivity|lia|lia] | rewrite (ycell _ (j + k)); [reflexivity|lia|lia]].
    Ltac ces j := first [ce j 3 | ce j 4 | ce j 5 | ce j 6 | ce (j + 6) 1 | ce (j + 6) 2 | ce (j + 6) 3 | ce (j + 6) 4 | ce (j + 6) 5].

    Ltac value j := unfold set4; cbn -[dot3 Nat.add]; f_equal; f_equal; unfold dot3; cbn; rewrite ?Nat.add_0_r, <- ?Nat.add_assoc; cbn [Nat.add]; ring.
    Ltac rest j H11 H12 := do 6 (split; [reflexivity|]); split; [unfold set4; cbn; do 2 f_equal; lia|];
      split; [unfold set4; cbn; do 2 f_equal; lia|]; split; [exact H11|exact H12].

    Lemma dot_body rg pt j re im : j + 9 <= n -> in_dot rg pt j re im ->
      exists rg' pt', run4 ar vcdot_body (St4 rg pt m) = Some (St4 rg' pt' m) /\
        in_dot rg' pt' (j + 6) (re +r dot3 0 f g j) (im +r dot3 1 f g j).
    Proof.
      intros Lj (H1 & H2 & H3 & H4 & H5 & H6 & H7 & H8 & H9 & H10 & H11 & H12). unfold vcdot_body.
      repeat (instr none ltac:(ces j)). cbn [run4].
      eexists. eexists. split; [reflexivity|].
      split; [|split]; [value j|value j|]. rest j H11 H12.
    Qed.

    Lemma dot_last rg pt j re im : j + 6 <= n -> in_dot rg pt j re im ->
      exists rg' pt', run4 ar vcdot_last (St4 rg pt m) = Some (St4 rg' pt' m) /\
        rg' r4_result_re = Some [re +r dot3 0 f g j] /\ rg' r4_result_im = Some [im +r dot3 1 f g j] /\
        pt' p4_Out_re = Some (rb, ro) /\ pt' p4_Out_im = Some (rb, ro + 1).
    Proof.
      intros Lj (H1 & H2 & H3 & H4 & H5 & H6 & H7 & H8 & H9 & H10 & H11 & H12). unfold vcdot_last.
      repeat (instr none ltac:(ces j)). cbn [run4].
      eexists. eexists. split; [reflexivity|].
      split; [|split]; [value j|value j|]. split; [exact H11|exact H12].
    Qed.

    Lemma dot_loop k : forall rg pt j re im, j + 6 * k + 3 <= n -> in_dot rg pt j re im ->
      exists rg' pt', loop4 ar k vcdot_body (St4 rg pt m) = Some (St4 rg' pt' m) /\
        in_dot rg' pt' (j + 6 * k) (re +r dots 0 f g j k) (im +r dots 1 f g j k).
    Proof.
      induction k as [|k IH]; intros rg pt j re im Lj H.
      - exists rg, pt. split; [reflexivity|]. rewrite Nat.mul_0_r, Nat.add_0_r. unfold dots. cbn [total].
        replace (re +r a_ofZ ar 0) with re by (cbn; ring). replace (im +r a_ofZ ar 0) with im by (cbn; ring). exact H.
      - destruct (dot_body rg pt j re im ltac:(lia) H) as (rg1 & pt1 & E1 & H1).
        destruct (IH rg1 pt1 (j + 6) _ _ ltac:(lia) H1) as (rg2 & pt2 & E2 & H2).
        exists rg2, pt2. cbn [loop4]. rewrite E1. split; [exact E2|].
        replace (j + 6 * S k) with (j + 6 + 6 * k) by lia. change (S k) with (1 + k). rewrite !dots_app.
        assert (D : forall p, dots p f g j 1 = dot3 p f g j).
        { intros p. unfold dots. cbn [total]. rewrite Nat.mul_0_r, Nat.add_0_r. generalize (dot3 p f g j). intros z. cbn. ring. }
        rewrite !D, Nat.mul_1_r.
        replace (re +r (dot3 0 f g j +r dots 0 f g (j + 6) k)) with (re +r dot3 0 f g j +r dots 0 f g (j + 6) k) by (generalize (dot3 0 f g j), (dots 0 f g (j + 6) k); intros; cbn; ring).
        replace (im +r (dot3 1 f g j +r dots 1 f g (j + 6) k)) with (im +r dot3 1 f g j +r dots 1 f g (j + 6) k) by (generalize (dot3 1 f g j), (dots 1 f g (j + 6) k); intros; cbn; ring).
        exact H2.
    Qed.

    Lemma dot_call k : n = 6 * k -> m rb ro <> None -> m rb (ro + 1) <> None ->
      exists s', local_dot ar vcdot_zero vcdot_pre vcdot_body vcdot_last vcdot_store
          [(p4_Out_re, (rb, ro)); (p4_Out_im, (rb, ro + 1)); (p4_V1, (x, o)); (p4_V2, (y, o))] k m = Some s' /\
        mem4 s' rb ro = Some (dots 0 f g 0 k) /\ mem4 s' rb (ro + 1) = Some (dots 1 f g 0 k) /\
        forall b q, ~ (b = rb /\ ro <= q < ro + 2) -> mem4 s' b q = m b q.
    Proof.
      intros Hn Hm1 Hm2. unfold local_dot.
      unfold vcdot_zero at 1. unfold start4. cbn [fold_right fst snd]. do 2 (instr none none). cbn [run4 then4].
      match goal with |- context [St4 ?a ?b m] => set (rg0 := a); set (pt0 := b) end.
      assert (E : exists rg pt, (if 0 <? k then then4 (run4 ar vcdot_pre (St4 rg0 pt0 m))
                   (fun s2 => then4 (loop4 ar (k - 1) vcdot_body s2) (run4 ar vcdot_last)) else Some (St4 rg0 pt0 m)) = Some (St4 rg pt m) /\
                rg r4_result_re = Some [dots 0 f g 0 k] /\ rg r4_result_im = Some [dots 1 f g 0 k] /\
                pt p4_Out_re = Some (rb, ro) /\ pt p4_Out_im = Some (rb, ro + 1)).
      { destruct (0 <? k) eqn:K.
        - apply Nat.ltb_lt in K.
          assert (E0 : exists rg pt, run4 ar vcdot_pre (St4 rg0 pt0 m) = Some (St4 rg pt m) /\ in_dot rg pt 0 (a_ofZ ar 0) (a_ofZ ar 0)).
          { unfold vcdot_pre, rg0, pt0.
            repeat (instr none ltac:(first [ce 0 0 | ce 0 1 | ce 0 2])). cbn [run4]. eexists. eexists. split; [reflexivity|].
            unfold in_dot. do 8 (split; [reflexivity|]).
            split; [unfold set4; cbn; do 2 f_equal; lia|]. split; [unfold set4; cbn; do 2 f_equal; lia|]. split; reflexivity. }
          destruct E0 as (rg1 & pt1 & E0 & H0). rewrite E0. cbn [then4].
          destruct (dot_loop (k - 1) rg1 pt1 0 _ _ ltac:(lia) H0) as (rg2 & pt2 & E1 & H1). rewrite E1. cbn [then4].
          destruct (dot_last rg2 pt2 (0 + 6 * (k - 1)) _ _ ltac:(lia) H1) as (rg3 & pt3 & E2 & H2 & H3 & H4 & H5).
          exists rg3, pt3. split; [exact E2|].
          assert (D : forall p, dots p f g 0 k = a_ofZ ar 0 +r dots p f g 0 (k - 1) +r dot3 p f g (0 + 6 * (k - 1))).
          { intros p. replace k with ((k - 1) + 1) at 1 by lia. rewrite dots_app. unfold dots at 2. cbn [total].
            rewrite Nat.mul_0_r, Nat.add_0_r. generalize (dots p f g 0 (k - 1)), (dot3 p f g (0 + 6 * (k - 1))). intros. cbn. ring. }
          rewrite !D. auto.
        - apply Nat.ltb_ge in K. assert (k = 0) as -> by lia. exists rg0, pt0. repeat (split; [reflexivity|]). reflexivity. }
      destruct E as (rg & pt & E & R1 & R2 & P1 & P2). rewrite E. cbn [then4].
      unfold vcdot_store. cbn [run4 exec4 regs4 ptrs4 mem4]. rewrite P1, R1.
      destruct (m rb ro) as [v|] eqn:Ev; [|congruence]. cbn [regs4 ptrs4 mem4]. rewrite P2, R2.
      assert (S1 : setm m rb ro (dots 0 f g 0 k) rb (ro + 1) = m rb (ro + 1)).
      { unfold setm. rewrite Nat.eqb_refl. replace (ro + 1 =? ro) with false by (symmetry; apply Nat.eqb_neq; lia). reflexivity. }
      rewrite S1. destruct (m rb (ro + 1)) as [v'|] eqn:Ev'; [|congruence].
      eexists. split; [reflexivity|]. cbn [mem4]. split; [|split].
      - unfold setm. rewrite !Nat.eqb_refl. replace (ro =? ro + 1) with false by (symmetry; apply Nat.eqb_neq; lia). reflexivity.
      - unfold setm at 1. rewrite !Nat.eqb_refl. reflexivity.
      - intros b q Nq. unfold setm. destruct (b =? rb) eqn:B; [|reflexivity]. apply Nat.eqb_eq in B.
        replace (q =? ro + 1) with false by (symmetry; apply Nat.eqb_neq; lia).
        replace (q =? ro) with false by (symmetry; apply Nat.eqb_neq; lia). reflexivity.
    Qed.

    Definition in_real (rg : N -> option (list R)) (pt : N -> option (nat * nat)) (j : nat) (re : R) : Prop :=
      rg r4_result = Some [re] /\
      rg r4_v1_0r = Some [f j] /\ rg r4_v1_0i = Some [f (j + 1)] /\ rg r4_v1_1r = Some [f (j + 2)] /\
      rg r4_v1_1i = Some [f (j + 3)] /\ rg r4_v1_2r = Some [f (j + 4)] /\ rg r4_v1_2i = Some [f (j + 5)] /\
      rg r4_v2_0r = Some [g j] /\ rg r4_v2_0i = Some [g (j + 1)] /\ rg r4_v2_1r = Some [g (j + 2)] /\
      rg r4_v2_1i = Some [g (j + 3)] /\ rg r4_v2_2r = Some [g (j + 4)] /\ rg r4_v2_2i = Some [g (j + 5)] /\
      pt p4_V1 = Some (x, o + j + 6) /\ pt p4_V2 = Some (y, o + j + 6) /\
      pt p4_Out = Some (rb, ro).

    Lemma real_body rg pt j re : j + 12 <= n -> in_real rg pt j re ->
      exists rg' pt', run4 ar vcdot_real_body (St4 rg pt m) = Some (St4 rg' pt' m) /\
        in_real rg' pt' (j + 6) (re +r dot3 0 f g j).
    Proof.
      intros Lj (H1 & H2 & H3 & H4 & H5 & H6 & H7 & H8 & H9 & H10 & H11 & H12 & H13 & H14 & H15 & H16). unfold vcdot_real_body.
      repeat (instr none ltac:(ces j)). cbn [run4].
      eexists. eexists. split; [reflexivity|].
      split; [value j|]. do 12 (split; [reflexivity|]).
      split; [unfold set4; cbn; do 2 f_equal; lia|]. split; [unfold set4; cbn; do 2 f_equal; lia|]. exact H16.
    Qed.

    Lemma real_last rg pt j re : in_real rg pt j re ->
      exists rg' pt', run4 ar vcdot_real_last (St4 rg pt m) = Some (St4 rg' pt' m) /\
        rg' r4_result = Some [re +r dot3 0 f g j] /\ pt' p4_Out = Some (rb, ro).
    Proof.
      intros (H1 & H2 & H3 & H4 & H5 & H6 & H7 & H8 & H9 & H10 & H11 & H12 & H13 & H14 & H15 & H16). unfold vcdot_real_last.
      repeat (instr none none). cbn [run4].
      eexists. eexists. split; [reflexivity|]. split; [value j|]. exact H16.
    Qed.

    Lemma real_loop k : forall rg pt j re, j + 6 * k + 6 <= n -> in_real rg pt j re ->
      exists rg' pt', loop4 ar k vcdot_real_body (St4 rg pt m) = Some (St4 rg' pt' m) /\
        in_real rg' pt' (j + 6 * k) (re +r dots 0 f g j k).
    Proof.
      induction k as [|k IH]; intros rg pt j re Lj H.
      - exists rg, pt. split; [reflexivity|]. rewrite Nat.mul_0_r, Nat.add_0_r. unfold dots. cbn [total].
        replace (re +r a_ofZ ar 0) with re by (cbn; ring). exact H.
      - destruct (real_body rg pt j re ltac:(lia) H) as (rg1 & pt1 & E1 & H1).
        destruct (IH rg1 pt1 (j + 6) _ ltac:(lia) H1) as (rg2 & pt2 & E2 & H2).
        exists rg2, pt2. cbn [loop4]. rewrite E1. split; [exact E2|].
        replace (j + 6 * S k) with (j + 6 + 6 * k) by lia. change (S k) with (1 + k). rewrite !dots_app.
        assert (D : forall p, dots p f g j 1 = dot3 p f g j).
        { intros p. unfold dots. cbn [total]. rewrite Nat.mul_0_r, Nat.add_0_r. generalize (dot3 p f g j). intros z. cbn. ring. }
        rewrite !D, Nat.mul_1_r.
        replace (re +r (dot3 0 f g j +r dots 0 f g (j + 6) k)) with (re +r dot3 0 f g j +r dots 0 f g (j + 6) k) by (generalize (dot3 0 f g j), (dots 0 f g (j + 6) k); intros; cbn; ring).
        exact H2.
    Qed.

    Lemma real_call k : n = 6 * k -> m rb ro <> None ->
      exists s', local_dot ar vcdot_real_zero vcdot_real_pre vcdot_real_body vcdot_real_last vcdot_real_store
          [(p4_Out, (rb, ro)); (p4_V1, (x, o)); (p4_V2, (y, o))] k m = Some s' /\
        mem4 s' rb ro = Some (dots 0 f g 0 k) /\
        forall b q, ~ (b = rb /\ q = ro) -> mem4 s' b q = m b q.
    Proof.
      intros Hn Hm1. unfold local_dot.
      unfold vcdot_real_zero at 1. unfold start4. cbn [fold_right fst snd]. instr none none. cbn [run4 then4].
      match goal with |- context [St4 ?a ?b m] => set (rg0 := a); set (pt0 := b) end.
      assert (E : exists rg pt, (if 0 <? k then then4 (run4 ar vcdot_real_pre (St4 rg0 pt0 m))
                   (fun s2 => then4 (loop4 ar (k - 1) vcdot_real_body s2) (run4 ar vcdot_real_last)) else Some (St4 rg0 pt0 m)) = Some (St4 rg pt m) /\
                rg r4_result = Some [dots 0 f g 0 k] /\ pt p4_Out = Some (rb, ro)).
      { destruct (0 <? k) eqn:K.
        - apply Nat.ltb_lt in K.
          assert (E0 : exists rg pt, run4 ar vcdot_real_pre (St4 rg0 pt0 m) = Some (St4 rg pt m) /\ in_real rg pt 0 (a_ofZ ar 0)).
          { unfold vcdot_real_pre, rg0, pt0.
            repeat (instr none ltac:(first [ce 0 0 | ce 0 1 | ce 0 2 | ce 0 3 | ce 0 4 | ce 0 5])). cbn [run4]. eexists. eexists. split; [reflexivity|].
            unfold in_real. do 13 (split; [reflexivity|]).
            split; [unfold set4; cbn; do 2 f_equal; lia|]. split; [unfold set4; cbn; do 2 f_equal; lia|]. reflexivity. }
          destruct E0 as (rg1 & pt1 & E0 & H0). rewrite E0. cbn [then4].
          destruct (real_loop (k - 1) rg1 pt1 0 _ ltac:(lia) H0) as (rg2 & pt2 & E1 & H1). rewrite E1. cbn [then4].
          destruct (real_last rg2 pt2 (0 + 6 * (k - 1)) _ H1) as (rg3 & pt3 & E2 & H2 & H3).
          exists rg3, pt3. split; [exact E2|].
          assert (D : forall p, dots p f g 0 k = a_ofZ ar 0 +r dots p f g 0 (k - 1) +r dot3 p f g (0 + 6 * (k - 1))).
          { intros p. replace k with ((k - 1) + 1) at 1 by lia. rewrite dots_app. unfold dots at 2. cbn [total].
            rewrite Nat.mul_0_r, Nat.add_0_r. generalize (dots p f g 0 (k - 1)), (dot3 p f g (0 + 6 * (k - 1))). intros. cbn. ring. }
          rewrite !D. auto.
        - apply Nat.ltb_ge in K. assert (k = 0) as -> by lia. exists rg0, pt0. repeat (split; [reflexivity|]). reflexivity. }
      destruct E as (rg & pt & E & R1 & P1). rewrite E. cbn [then4].
      unfold vcdot_real_store. cbn [run4 exec4 regs4 ptrs4 mem4]. rewrite P1, R1.
      destruct (m rb ro) as [v|] eqn:Ev; [|congruence].
      eexists. split; [reflexivity|]. cbn [mem4]. split.
      - unfold setm. rewrite !Nat.eqb_refl. reflexivity.
      - intros b q Nq. unfold setm. destruct (b =? rb) eqn:B; [|reflexivity]. destruct (q =? ro) eqn:Q; [|reflexivity].
        apply Nat.eqb_eq in B, Q. tauto.
    Qed.
  End Dot.
End Sums4.

From Coq Require Import List Bool Arith NArith ZArith Lia Permutation.
From Coq Require Import Ring Ring_theory InitialRing Ring_polynom.
From Verif Require Import EvalModel EvalProofs SseMachine SseKernels SseSpec SseEval SseProofs SseMatrix SseFields SseElem
  SseBlasSpec SseBlas SseBlasProofs.
Import ListNotations.
Open Scope nat_scope.

(** ** Instructions do the same when more is known about registers and pointers *)
Lemma alu_sub {V} (ar : arith V) i rg rg' r1 : sub rg rg' -> alu ar i rg = Some r1 ->
  exists r1', alu ar i rg' = Some r1' /\ sub r1 r1'.
Proof.
  intros H.
  assert (B : forall d a b f r2, match get a rg, get b rg with Some x, Some y => Some (put d (f x y) rg) | _, _ => None end = Some r2 ->
    exists r2', match get a rg', get b rg' with Some x, Some y => Some (put d (f x y) rg') | _, _ => None end = Some r2' /\ sub r2 r2').
  { intros d a b f r2. destruct (get a rg) as [x|] eqn:A; [|discriminate]. destruct (get b rg) as [y|] eqn:C; [|discriminate].
    intros X. injection X as <-. rewrite (H _ _ A), (H _ _ C). eexists. split; [reflexivity|]. apply sub_put, H. }
  destruct i; cbn [alu]; intros X; try discriminate X; try (apply B; exact X);
    injection X as <-; eexists; (split; [reflexivity|]); apply sub_put, H.
Qed.

Lemma exec_sub {V} (ar : arith V) l : forall s t s', sub (regs s) (regs t) -> sub (ptrs s) (ptrs t) ->
  memory s = memory t -> exec ar l s = Some s' ->
  exists t', exec ar l t = Some t' /\ sub (regs s') (regs t') /\ memory s' = memory t'.
Proof.
  induction l as [|i l IH]; intros s t s' HR HP HM; cbn [exec].
  - intros X. injection X as <-. exists t. split; [reflexivity|]. split; assumption.
  - intros X. destruct (exec1 ar i s) as [s1|] eqn:E; [|discriminate].
    assert (G : exists t1, exec1 ar i t = Some t1 /\ sub (regs s1) (regs t1) /\ sub (ptrs s1) (ptrs t1) /\ memory s1 = memory t1).
    { assert (AL : forall r1, alu ar i (regs s) = Some r1 -> s1 = St r1 (ptrs s) (memory s) ->
        exists t1, match alu ar i (regs t) with Some rg => Some (St rg (ptrs t) (memory t)) | None => None end = Some t1 /\
          sub (regs s1) (regs t1) /\ sub (ptrs s1) (ptrs t1) /\ memory s1 = memory t1).
      { intros r1 A ->. destruct (alu_sub ar i _ _ _ HR A) as [r1' [B C]]. rewrite B. eexists. split; [reflexivity|].
        cbn. auto. }
      destruct i; cbn [exec1] in E |- *;
        try (destruct (alu ar _ (regs s)) as [rg|] eqn:A; [|discriminate E]; injection E as E; apply (AL rg); [first [exact A|reflexivity]|congruence]).
      - destruct (get p (ptrs s)) as [[b q]|] eqn:P; [|discriminate E]. rewrite (HP _ _ P). rewrite <- HM.
        destruct (aligned && Nat.odd (q + o)); [discriminate E|].
        destruct (memory s b (q + o)) as [u|]; [|discriminate E]. destruct (memory s b (S (q + o))) as [v|]; [|discriminate E].
        injection E as <-. eexists. split; [reflexivity|]. cbn. split; [apply sub_put, HR|]. auto.
      - destruct (get p (ptrs s)) as [[b q]|] eqn:P; [|discriminate E]. rewrite (HP _ _ P). rewrite <- HM.
        destruct (memory s b (q + o)) as [u|]; [|discriminate E].
        injection E as <-. eexists. split; [reflexivity|]. cbn. split; [apply sub_put, HR|]. auto.
      - destruct (get p (ptrs s)) as [[b q]|] eqn:P; [|discriminate E]. rewrite (HP _ _ P). rewrite <- HM.
        destruct (get r (regs s)) as [[x y]|] eqn:Q; [|discriminate E]. rewrite (HR _ _ Q).
        destruct (aligned && Nat.odd (q + o)); [discriminate E|].
        destruct (memory s b (q + o)) as [u|]; [|discriminate E]. destruct (memory s b (S (q + o))) as [v|]; [|discriminate E].
        injection E as <-. eexists. split; [reflexivity|]. cbn. auto.
      - destruct (get p (ptrs s)) as [[b q]|] eqn:P; [|discriminate E]. rewrite (HP _ _ P). rewrite <- HM.
        destruct (get r (regs s)) as [[x y]|] eqn:Q; [|discriminate E]. rewrite (HR _ _ Q).
        destruct (memory s b (q + o)) as [u|]; [|discriminate E].
        injection E as <-. eexists. split; [reflexivity|]. cbn. auto.
      - destruct (get p (ptrs s)) as [[b q]|] eqn:P; [|discriminate E]. rewrite (HP _ _ P). rewrite <- HM.
        destruct (get r (regs s)) as [[x y]|] eqn:Q; [|discriminate E]. rewrite (HR _ _ Q).
        destruct (memory s b (q + o)) as [u|]; [|discriminate E].
        injection E as <-. eexists. split; [reflexivity|]. cbn. auto.
      - destruct (get q (ptrs s)) as [a|] eqn:P; [|discriminate E]. rewrite (HP _ _ P).
        injection E as <-. eexists. split; [reflexivity|]. cbn. split; [exact HR|]. split; [apply sub_put, HP|exact HM].
      - destruct (get p (ptrs s)) as [[b q]|] eqn:P; [|discriminate E]. rewrite (HP _ _ P).
        injection E as <-. eexists. split; [reflexivity|]. cbn. split; [exact HR|]. split; [apply sub_put, HP|exact HM]. }
    destruct G as [t1 [G1 [G2 [G3 G4]]]]. rewrite G1. exact (IH s1 t1 s' G2 G3 G4 X).
Qed.

(** ** The four accumulators *)
Definition carry {V} (a : nat -> V) : list (N * (V * V)) :=
  [(r_sum1, (a 0, a 1)); (r_sum2, (a 2, a 3)); (r_sum3, (a 4, a 5)); (r_sum4, (a 6, a 7))].

Definition step {V} (ar : arith V) (r : red) (a u v : nat -> V) (q : nat) : V :=
  let term e := match r with
    | Norm2 => a_mul ar (u e) (u e)
    | InnerReal => a_mul ar (u e) (v e)
    | Inner => if Nat.odd q then a_sub ar (a_mul ar (u (e - 1)) (v e)) (a_mul ar (u e) (v (e - 1)))
               else a_add ar (a_mul ar (u e) (v e)) (a_mul ar (u (S e)) (v (S e)))
    end in
  a_add ar (a_add ar (a_add ar (a q) (term q)) (term (8 + q))) (term (16 + q)).

Definition tot {V} (ar : arith V) (r : red) (a : nat -> V) (c : nat) : V :=
  let ev := a_add ar (a_add ar (a 0) (a 2)) (a_add ar (a 4) (a 6)) in
  let od := a_add ar (a_add ar (a 1) (a 3)) (a_add ar (a 5) (a 7)) in
  match r with Inner => if c =? 0 then ev else od | _ => a_add ar od ev end.

Definition red_lp (r : red) (nw : nat) : list (N * nat) :=
  match r with
  | Norm2 => [(p_in, 0); (p_sum, nw)]
  | _ => [(p_y_p, 0); (p_x_p, nw - 1); (p_sum, nw)]
  end.
Definition red_check (w : isa) (r : red) (nw : nat) (par : list bool) : bool :=
  check (k_body (rkernel w r) 0) par (red_lp r nw) 24 nw
    (carry var) (swin 8 24 nw)
    (carry (step ear r var (fun j => var (8 + j)) (fun j => var (8 + 24 * (nw - 1) + j)))) (swin 8 24 nw).

Lemma red_checks w r b :
  red_check w r 1 [false; b] = true /\ (r <> Norm2 -> red_check w r 2 [false; false; b] = true).
Proof.
  destruct w, r, b; (split; [vm_compute; reflexivity|]); intros X; try (contradiction X; reflexivity); vm_compute; reflexivity.
Qed.

Lemma fold_ext_in {A B} (f g : A -> B -> B) (l : list A) z :
  (forall p r, In p l -> f p r = g p r) -> fold_right f z l = fold_right g z l.
Proof.
  intros H. induction l as [|p l IH]; [reflexivity|]. cbn. rewrite IH by (intros; apply H; now right).
  apply H. now left.
Qed.

Lemma components_in p : In p components -> fst p < 4 /\ snd p < 3.
Proof. cbn. intros H. repeat (destruct H as [<-|H]; [cbn; lia|]). destruct H. Qed.

Lemma ferm_same {V} (m : mem V) b o A B : ferm_at m b o A -> ferm_at m b o B ->
  forall s c, s < 4 -> c < 3 -> A s c = B s c.
Proof.
  intros HA HB s c Hs Hc. destruct (HA s c Hs Hc) as [A1 A2]. destruct (HB s c Hs Hc) as [B1 B2].
  rewrite (surjective_pairing (A s c)), (surjective_pairing (B s c)). congruence.
Qed.

Lemma site_part_ext {V} (ar : arith V) r (A B B' : fermion V) c :
  (forall s c, s < 4 -> c < 3 -> B s c = B' s c) -> site_part ar r A B c = site_part ar r A B' c.
Proof.
  intros H.
  assert (E : site_dot ar A B = site_dot ar A B').
  { unfold site_dot. apply fold_ext_in. intros p q Hp. destruct (components_in p Hp). now rewrite H. }
  unfold site_part. destruct r; [reflexivity| |]; rewrite E; reflexivity.
Qed.

Section Sums.
  Variable R : cring.
  Let ar := arith_of R.
  Add Ring cring_ring_r : (claw R).

  Fixpoint accs (r : red) (u v : nat -> nat -> R) (i : nat) : nat -> R :=
    match i with
    | 0 => fun _ => a_ofZ ar 0
    | S i' => step ar r (accs r u v i') (u i') (v i')
    end.

  Lemma tot_step r a (A B : fermion R) c : c < parts r ->
    tot ar r (step ar r a (fword A) (fword B)) c = a_add ar (tot ar r a c) (site_part ar r A B c).
  Proof.
    intros Hc. destruct r; cbn [parts] in Hc.
    - cbn. ring.
    - destruct c as [|[|c]]; [| |lia]; cbn; ring.
    - cbn. ring.
  Qed.

  Lemma tot_accs r (X Y : nat -> fermion R) n c : c < parts r ->
    tot ar r (accs r (fun i => fword (X i)) (fun i => fword (Y i)) n) c = total ar n (fun i => site_part ar r (X i) (Y i) c).
  Proof.
    intros Hc. induction n as [|n IH].
    - destruct r; cbn [parts] in Hc; [cbn; ring| |cbn; ring]. destruct c as [|[|c]]; [| |lia]; cbn; ring.
    - cbn [accs total]. rewrite tot_step by exact Hc. now rewrite IH.
  Qed.

  Lemma body_const w r n : k_body (rkernel w r) n = k_body (rkernel w r) 0.
  Proof. destruct r; reflexivity. Qed.

  Lemma red_pre w r rb ro x y s (m : mem R) :
    exists st, exec ar (k_pre (rkernel w r)) (St [] (rargs r rb ro x y s) m) = Some st /\
      sub (carry (fun _ => a_ofZ ar 0)) (regs st) /\ memory st = m /\ get p_sum (ptrs st) = Some (rb, ro) /\
      match r with
      | Norm2 => get p_in (ptrs st) = Some (x, 24 * s)
      | _ => get p_y_p (ptrs st) = Some (x, 24 * s) /\ get p_x_p (ptrs st) = Some (y, 24 * s)
      end.
  Proof.
    unfold rargs. generalize (24 * s). intros o.
    destruct r; eexists; (split; [lazy; reflexivity|]); cbn [regs ptrs memory];
      (split; [intros q v X; exact X|]); repeat split.
  Qed.

  Lemma red_post w r (M : mem R) rb ro A : (forall c, c < parts r -> M rb (ro + c) <> None) ->
    exists s, exec ar (k_post (rkernel w r)) (St (carry A) [(p_sum, (rb, ro))] M) = Some s /\
      (forall c, c < parts r -> memory s rb (ro + c) = Some (tot ar r A c)) /\
      only M (memory s) rb ro (parts r).
  Proof.
    intros H. destruct (M rb (ro + 0)) as [u|] eqn:E0; [|exfalso; apply (H 0); [destruct r; cbn; lia|exact E0]].
    assert (O1 : forall v, only M (setm M rb (ro + 0) v) rb ro 1).
    { intros v b' o' N. unfold setm. destruct (b' =? rb) eqn:B, (o' =? ro + 0) eqn:C; try reflexivity.
      apply Nat.eqb_eq in B, C. exfalso. apply N. lia. }
    destruct r.
    - eexists. split; [lazy -[Nat.add setm gen_phiZ num c0 c1 cadd cmul csub copp]; rewrite E0; lazy -[Nat.add setm gen_phiZ num c0 c1 cadd cmul csub copp]; reflexivity|].
      cbn [memory parts]. split; [|apply O1].
      intros c Hc. replace c with 0 by lia. unfold setm. rewrite !Nat.eqb_refl. reflexivity.
    - destruct (M rb (S (ro + 0))) as [u'|] eqn:E1; [|exfalso; apply (H 1); [cbn; lia|rewrite <- E1; f_equal; lia]].
      eexists. split; [lazy -[Nat.add setm gen_phiZ num c0 c1 cadd cmul csub copp]; rewrite E0, E1; lazy -[Nat.add setm gen_phiZ num c0 c1 cadd cmul csub copp]; reflexivity|].
      cbn [memory parts]. split.
      + intros c Hc. unfold setm. rewrite Nat.eqb_refl.
        destruct c as [|[|c]]; [| |lia].
        * replace (ro + 0 =? S (ro + 0)) with false by (symmetry; apply Nat.eqb_neq; lia).
          rewrite Nat.eqb_refl. reflexivity.
        * replace (ro + 1 =? S (ro + 0)) with true by (symmetry; apply Nat.eqb_eq; lia). reflexivity.
      + intros b' o' N. unfold setm.
        destruct (b' =? rb) eqn:B; [|reflexivity]. apply Nat.eqb_eq in B.
        destruct (o' =? S (ro + 0)) eqn:C; [apply Nat.eqb_eq in C; exfalso; apply N; lia|].
        destruct (o' =? ro + 0) eqn:C'; [apply Nat.eqb_eq in C'; exfalso; apply N; lia|reflexivity].
    - eexists. split; [lazy -[Nat.add setm gen_phiZ num c0 c1 cadd cmul csub copp]; rewrite E0; lazy -[Nat.add setm gen_phiZ num c0 c1 cadd cmul csub copp]; reflexivity|].
      cbn [memory parts]. split; [|apply O1].
      intros c Hc. replace c with 0 by lia. unfold setm. rewrite !Nat.eqb_refl. cbn [andb]. f_equal. cbn. ring.
  Qed.

  Lemma red_core w r rb ro x y s n nw (m : mem R) (F : nat -> nat -> nat -> R) :
    (nw = 1 /\ (r = Norm2 \/ x = y) \/ nw = 2 /\ r <> Norm2 /\ x <> y) ->
    (forall v i j, v < nw -> i < n -> j < 24 -> m (if v =? 0 then x else y) (24 * s + i * 24 + j) = Some (F v i j)) ->
    (forall c, c < parts r -> m rb (ro + c) <> None) ->
    exists m', call ar (rkernel w r) (rargs r rb ro x y s) n m = Some m' /\
      (forall c, c < parts r -> m' rb (ro + c) = Some (tot ar r (accs r (F 0) (F (nw - 1)) n) c)) /\
      only m m' rb ro (parts r).
  Proof.
    intros Hnw Hm Hrb.
    destruct (red_pre w r rb ro x y s m) as [s0 [P1 [P2 [P3 [P4 P5]]]]].
    set (blk := fun v => if v =? nw then rb else if v =? 0 then x else y).
    set (off := fun v => if v =? nw then ro else if v <? nw then 24 * s else 0).
    set (par := if nw =? 1 then [false; Nat.odd ro] else [false; false; Nat.odd ro]).
    assert (Hck : check (k_body (rkernel w r) n) par (red_lp r nw) 24 nw (carry var) (swin 8 24 nw)
      (carry (step ear r var (fun j => var (8 + j)) (fun j => var (8 + 24 * (nw - 1) + j)))) (swin 8 24 nw) = true).
    { rewrite body_const. destruct (red_checks w r (Nat.odd ro)) as [C1 C2]. unfold par.
      destruct Hnw as [[-> _]|[-> [N _]]]; [exact C1|exact (C2 N)]. }
    assert (Hlt : forall v, v < nw -> blk v = (if v =? 0 then x else y) /\ off v = 24 * s).
    { intros v Hv. unfold blk, off. replace (v =? nw) with false by (symmetry; apply Nat.eqb_neq; lia).
      apply Nat.ltb_lt in Hv. rewrite Hv. auto. }
    destruct (passes R (k_body (rkernel w r) n) (red_lp r nw) 24 nw blk off n m
                (fun i v => F v i) (fun i v => F v i)
                (fun i => carry (accs r (F 0) (F (nw - 1)) i)) par (carry var)
                (carry (step ear r var (fun j => var (8 + j)) (fun j => var (8 + 24 * (nw - 1) + j))))
                (swin 8 24 nw) (swin 8 24 nw)
                (fun i => senv (map (accs r (F 0) (F (nw - 1)) i) (seq 0 8)) nw 24 (fun v => F v i)))
      with (s := s0) as [s1 [S1 [S2 [S3 [S4 S5]]]]].
    - reflexivity.
    - intros v. unfold par, off. destruct Hnw as [[-> _]|[-> _]]; cbn [Nat.eqb].
      + destruct v as [|[|v]]; cbn [nth Nat.eqb Nat.ltb Nat.leb]; [|reflexivity|destruct v; reflexivity]. now rewrite odd24.
      + destruct v as [|[|[|v]]]; cbn [nth Nat.eqb]; [| |reflexivity|destruct v; reflexivity];
          cbn [Nat.ltb Nat.leb]; now rewrite odd24.
    - intros v v' Hv Hv' N. destruct (Hlt v Hv) as [-> ->]. destruct (Hlt v' Hv') as [-> ->]. left.
      destruct Hnw as [[-> _]|[-> [_ Hxy]]]; [lia|].
      destruct v as [|[|v]], v' as [|[|v']]; try lia; cbn; congruence.
    - intros v i j Hv Hi Hj. destruct (Hlt v Hv) as [-> ->]. apply Hm; assumption.
    - exact Hck.
    - intros i. destruct Hnw as [[-> _]|[-> _]]; reflexivity.
    - intros i. destruct Hnw as [[-> _]|[-> [N _]]]; destruct r; try (contradiction N; reflexivity); reflexivity.
    - intros i. destruct Hnw as [[-> _]|[-> _]]; reflexivity.
    - intros i. destruct Hnw as [[-> _]|[-> _]]; reflexivity.
    - exact P2.
    - intros q v. unfold red_lp, blk, off.
      destruct r; cbn [get]; intros X.
      + destruct (N.eqb q p_in) eqn:Q1; [|destruct (N.eqb q p_sum) eqn:Q2; [|discriminate X]]; injection X as <-.
        * apply N.eqb_eq in Q1. subst q. rewrite P5. destruct Hnw as [[-> _]|[-> [N _]]]; [reflexivity|contradiction N; reflexivity].
        * apply N.eqb_eq in Q2. subst q. rewrite P4, !Nat.eqb_refl. reflexivity.
      + destruct (N.eqb q p_y_p) eqn:Q1; [|destruct (N.eqb q p_x_p) eqn:Q3; [|destruct (N.eqb q p_sum) eqn:Q2; [|discriminate X]]]; injection X as <-.
        * apply N.eqb_eq in Q1. subst q. rewrite (proj1 P5). destruct Hnw as [[-> _]|[-> _]]; reflexivity.
        * apply N.eqb_eq in Q3. subst q. rewrite (proj2 P5). destruct Hnw as [[-> [X|X]]|[-> _]]; [discriminate X|subst y; reflexivity|reflexivity].
        * apply N.eqb_eq in Q2. subst q. rewrite P4, !Nat.eqb_refl. reflexivity.
      + destruct (N.eqb q p_y_p) eqn:Q1; [|destruct (N.eqb q p_x_p) eqn:Q3; [|destruct (N.eqb q p_sum) eqn:Q2; [|discriminate X]]]; injection X as <-.
        * apply N.eqb_eq in Q1. subst q. rewrite (proj1 P5). destruct Hnw as [[-> _]|[-> _]]; reflexivity.
        * apply N.eqb_eq in Q3. subst q. rewrite (proj2 P5). destruct Hnw as [[-> [X|X]]|[-> _]]; [discriminate X|subst y; reflexivity|reflexivity].
        * apply N.eqb_eq in Q2. subst q. rewrite P4, !Nat.eqb_refl. reflexivity.
    - exact P3.
    - assert (Same : forall b o, memory s1 b o = m b o).
      { intros b o.
        destruct (find_lt (fun v => b = blk v /\ off v <= o < off v + n * 24)) with (nw := nw) as [[v [Hv [-> Ho]]]|Hall].
        - intros v. destruct (Nat.eq_dec b (blk v)); [|right; tauto].
          destruct (le_dec (off v) o); [|right; tauto].
          destruct (lt_dec o (off v + n * 24)); [left|right]; tauto.
        - set (z := o - off v). assert (Hz : z < n * 24) by (unfold z; lia).
          pose proof (Nat.div_mod z 24 ltac:(lia)) as D. pose proof (Nat.mod_upper_bound z 24 ltac:(lia)) as U.
          assert (Hi : z / 24 < n) by (apply Nat.div_lt_upper_bound; lia).
          replace o with (off v + z / 24 * 24 + z mod 24) by (unfold z in *; lia).
          rewrite (S4 v _ _ Hv Hi U). destruct (Hlt v Hv) as [-> ->]. rewrite (Hm v _ _ Hv Hi U). reflexivity.
        - apply S5. exact Hall. }
      destruct (red_post w r (memory s1) rb ro (accs r (F 0) (F (nw - 1)) n)) as [s2 [Q1 [Q2 Q3]]].
      { intros c Hc. rewrite Same. apply Hrb, Hc. }
      destruct (exec_sub ar (k_post (rkernel w r))
                  (St (carry (accs r (F 0) (F (nw - 1)) n)) [(p_sum, (rb, ro))] (memory s1)) s1 s2) as [s3 [T1 [T2 T3]]].
      { exact S2. }
      { cbn [ptrs]. intros q v. cbn [get]. destruct (N.eqb q p_sum) eqn:E; [|discriminate]. intros X. injection X as <-.
        apply N.eqb_eq in E. subst q.
        assert (L : get p_sum (red_lp r nw) = Some nw) by (destruct r; reflexivity).
        rewrite (S3 _ _ L). unfold stride, blk, off. rewrite Nat.eqb_refl, Nat.ltb_irrefl. f_equal. f_equal. lia. }
      { reflexivity. }
      { exact Q1. }
      exists (memory s3). split.
      + unfold call. fold ar in P1. rewrite P1.
        replace (k_times (rkernel w r) n) with n by (destruct r; reflexivity).
        fold ar in S1. rewrite S1, T1. reflexivity.
      + rewrite <- T3. split; [exact Q2|]. intros b o N. rewrite (Q3 b o N). apply Same.
  Qed.

  Lemma red_call w r rb ro x y s n (m : mem R) (X Y : nat -> fermion R) :
    (forall i, i < n -> ferm_at m x (24 * (s + i)) (X (s + i))) ->
    (forall i, i < n -> ferm_at m y (24 * (s + i)) (Y (s + i))) ->
    (forall c, c < parts r -> m rb (ro + c) <> None) ->
    exists m', call ar (rkernel w r) (rargs r rb ro x y s) n m = Some m' /\
      (forall c, c < parts r -> m' rb (ro + c) = Some (total ar n (fun i => site_part ar r (X (s + i)) (Y (s + i)) c))) /\
      only m m' rb ro (parts r).
  Proof.
    intros HX HY Hrb.
    assert (Wd : forall b (Z : nat -> fermion R) i j, (forall i, i < n -> ferm_at m b (24 * (s + i)) (Z (s + i))) ->
      i < n -> j < 24 -> m b (24 * s + i * 24 + j) = Some (fword (Z (s + i)) j)).
    { intros b Z i j HZ Hi Hj. specialize (HZ i Hi). rewrite ferm_words in HZ. rewrite <- (HZ j Hj). f_equal. lia. }
    assert (Text : forall f g, (forall i, i < n -> f i = g i) -> total ar n f = total ar n g).
    { clear. intros f g. induction n as [|k IH]; intros H; [reflexivity|]. cbn. rewrite IH, H by auto. reflexivity. }
    destruct (Nat.eq_dec x y) as [E|N].
    - destruct (red_core w r rb ro x y s n 1 m (fun _ i => fword (X (s + i)))) as [m' [E1 [E2 E3]]]; auto.
      + intros v i j Hv Hi Hj. replace v with 0 by lia. cbn. apply Wd; assumption.
      + exists m'. split; [exact E1|]. split; [|exact E3]. intros c Hc. rewrite (E2 c Hc). f_equal.
        rewrite (tot_accs r (fun i => X (s + i)) (fun i => X (s + i))) by exact Hc. apply Text. intros i Hi.
        apply site_part_ext. subst y. apply ferm_same with (m := m) (b := x) (o := 24 * (s + i)); auto.
    - destruct r.
      + destruct (red_core w Norm2 rb ro x y s n 1 m (fun _ i => fword (X (s + i)))) as [m' [E1 [E2 E3]]]; auto.
        * intros v i j Hv Hi Hj. replace v with 0 by lia. cbn. apply Wd; assumption.
        * exists m'. split; [exact E1|]. split; [|exact E3]. intros c Hc. rewrite (E2 c Hc). f_equal.
          rewrite (tot_accs Norm2 (fun i => X (s + i)) (fun i => X (s + i))) by exact Hc. reflexivity.
      + destruct (red_core w Inner rb ro x y s n 2 m (fun v i => if v =? 0 then fword (X (s + i)) else fword (Y (s + i)))) as [m' [E1 [E2 E3]]]; auto.
        * right. split; [reflexivity|]. split; [discriminate|exact N].
        * intros v i j Hv Hi Hj. destruct (v =? 0); apply Wd; assumption.
        * exists m'. split; [exact E1|]. split; [|exact E3]. intros c Hc. rewrite (E2 c Hc). f_equal.
          apply (tot_accs Inner (fun i => X (s + i)) (fun i => Y (s + i))). exact Hc.
      + destruct (red_core w InnerReal rb ro x y s n 2 m (fun v i => if v =? 0 then fword (X (s + i)) else fword (Y (s + i)))) as [m' [E1 [E2 E3]]]; auto.
        * right. split; [reflexivity|]. split; [discriminate|exact N].
        * intros v i j Hv Hi Hj. destruct (v =? 0); apply Wd; assumption.
        * exists m'. split; [exact E1|]. split; [|exact E3]. intros c Hc. rewrite (E2 c Hc). f_equal.
          apply (tot_accs InnerReal (fun i => X (s + i)) (fun i => Y (s + i))). exact Hc.
  Qed.
End Sums.

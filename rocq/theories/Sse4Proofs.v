From Coq Require Import List Bool Arith NArith ZArith Lia.
From Verif Require Import SseMachine SseSpec SseEval SseFields SseBlasSpec SseBlasProofs Sse4Machine Sse4Kernels Sse4Eval.
Import ListNotations.
Open Scope nat_scope.

(** ** Number by number *)
Section Elem.
  Context {V : Type} (ar : arith V).
  Variables (d x y : nat) (F : V -> V -> V).

  Definition lift2 (u v : option V) : option V :=
    match u, v with Some p, Some q => Some (F p q) | _, _ => None end.

  (** The numbers of d from [lo] up to [hi] have been computed from those of x and y at the
      same place, nothing else has changed. *)
  Definition elemw (lo hi : nat) (m m' : mem V) : Prop :=
    forall b q, m' b q = if (b =? d) && ((lo <=? q) && (q <? hi)) then lift2 (m x q) (m y q) else m b q.

  Definition defd (m : mem V) (b lo hi : nat) : Prop := forall q, lo <= q < hi -> m b q <> None.

  Lemma elemw_nil o m : elemw o o m m.
  Proof.
    intros b q. destruct ((b =? d) && ((o <=? q) && (q <? o))) eqn:E; [|reflexivity].
    apply andb_true_iff in E. destruct E as [_ E]. apply andb_true_iff in E. destruct E as [E1 E2].
    apply Nat.leb_le in E1. apply Nat.ltb_lt in E2. lia.
  Qed.

  Lemma elemw_app lo mid hi m m1 m2 : lo <= mid -> mid <= hi ->
    elemw lo mid m m1 -> elemw mid hi m1 m2 -> elemw lo hi m m2.
  Proof.
    intros L1 L2 H1 H2 b q. rewrite H2. 
    assert (K : forall c, mid <= q -> m1 c q = m c q).
    { intros c Hq. rewrite H1. destruct (c =? d); cbn [andb]; [|reflexivity].
      destruct (Nat.ltb_spec q mid); [lia|]. rewrite andb_false_r. reflexivity. }
    destruct (b =? d) eqn:B; cbn [andb].
    - destruct (Nat.leb_spec mid q).
      + rewrite !K by lia. destruct (Nat.ltb_spec q hi); cbn [andb].
        * destruct (Nat.leb_spec lo q); [reflexivity|lia].
        * rewrite andb_false_r. reflexivity.
      + cbn [andb]. rewrite H1, B. cbn [andb].
        destruct (Nat.ltb_spec q mid); [|lia]. destruct (Nat.ltb_spec q hi); [reflexivity|lia].
    - rewrite H1, B. reflexivity.
  Qed.

  Lemma elemw_defd lo hi m m' b p q : elemw lo hi m m' -> defd m x lo hi -> defd m y lo hi ->
    defd m b p q -> defd m' b p q.
  Proof.
    intros H Hx Hy Hb o Ho. rewrite H. destruct ((b =? d) && ((lo <=? o) && (o <? hi))) eqn:E; [|apply Hb, Ho].
    apply andb_true_iff in E. destruct E as [_ E]. apply andb_true_iff in E. destruct E as [E1 E2].
    apply Nat.leb_le in E1. apply Nat.ltb_lt in E2.
    specialize (Hx o ltac:(lia)). specialize (Hy o ltac:(lia)). unfold lift2.
    destruct (m x o); [|congruence]. destruct (m y o); [discriminate|congruence].
  Qed.

  Lemma load4_ok (m : mem V) b q : q mod 4 = 0 -> defd m b q (q + 4) ->
    exists x0 x1 x2 x3, load4 m b q = Some [x0; x1; x2; x3] /\
      m b q = Some x0 /\ m b (q + 1) = Some x1 /\ m b (q + 2) = Some x2 /\ m b (q + 3) = Some x3.
  Proof.
    intros A D. unfold load4. rewrite A. cbn [Nat.eqb].
    pose proof (D q ltac:(lia)) as D0. pose proof (D (q + 1) ltac:(lia)) as D1.
    pose proof (D (q + 2) ltac:(lia)) as D2. pose proof (D (q + 3) ltac:(lia)) as D3.
    destruct (m b q) as [x0|]; [|congruence]. destruct (m b (q + 1)) as [x1|]; [|congruence].
    destruct (m b (q + 2)) as [x2|]; [|congruence]. destruct (m b (q + 3)) as [x3|]; [|congruence].
    exists x0, x1, x2, x3. repeat split.
  Qed.

  Lemma store4_ok (m : mem V) q x0 x1 x2 x3 y0 y1 y2 y3 : q mod 4 = 0 -> defd m d q (q + 4) ->
    m x q = Some x0 -> m x (q + 1) = Some x1 -> m x (q + 2) = Some x2 -> m x (q + 3) = Some x3 ->
    m y q = Some y0 -> m y (q + 1) = Some y1 -> m y (q + 2) = Some y2 -> m y (q + 3) = Some y3 ->
    exists m', store4 m d q [F x0 y0; F x1 y1; F x2 y2; F x3 y3] = Some m' /\ elemw q (q + 4) m m'.
  Proof.
    intros A D X0 X1 X2 X3 Y0 Y1 Y2 Y3. destruct (load4_ok m d q A D) as (z0 & z1 & z2 & z3 & L & _).
    unfold store4. rewrite L. eexists. split; [reflexivity|].
    intros b p. unfold setm. destruct (b =? d) eqn:B; cbn [andb]; [|reflexivity].
    destruct (Nat.eq_dec p (q + 3)) as [->|N3].
    { rewrite Nat.eqb_refl. replace (q <=? q + 3) with true by (symmetry; apply Nat.leb_le; lia).
      replace (q + 3 <? q + 4) with true by (symmetry; apply Nat.ltb_lt; lia). cbn [andb]. now rewrite X3, Y3. }
    rewrite (proj2 (Nat.eqb_neq p (q + 3)) N3).
    destruct (Nat.eq_dec p (q + 2)) as [->|N2].
    { rewrite Nat.eqb_refl. replace (q <=? q + 2) with true by (symmetry; apply Nat.leb_le; lia).
      replace (q + 2 <? q + 4) with true by (symmetry; apply Nat.ltb_lt; lia). cbn [andb]. now rewrite X2, Y2. }
    rewrite (proj2 (Nat.eqb_neq p (q + 2)) N2).
    destruct (Nat.eq_dec p (q + 1)) as [->|N1].
    { rewrite Nat.eqb_refl. replace (q <=? q + 1) with true by (symmetry; apply Nat.leb_le; lia).
      replace (q + 1 <? q + 4) with true by (symmetry; apply Nat.ltb_lt; lia). cbn [andb]. now rewrite X1, Y1. }
    rewrite (proj2 (Nat.eqb_neq p (q + 1)) N1).
    destruct (Nat.eq_dec p q) as [->|N0].
    { rewrite Nat.eqb_refl. rewrite Nat.leb_refl.
      replace (q <? q + 4) with true by (symmetry; apply Nat.ltb_lt; lia). cbn [andb]. now rewrite X0, Y0. }
    rewrite (proj2 (Nat.eqb_neq p q) N0).
    destruct (Nat.leb_spec q p), (Nat.ltb_spec p (q + 4)); cbn [andb]; try reflexivity. lia.
  Qed.

  (** ** Lines of a kernel: four numbers *)
  Variables (pd px py : N) (inv : (N -> option (list V)) -> Prop).

  Definition good_line (line : nat -> list instr4) : Prop := forall k rg pt m o,
    inv rg -> pt pd = Some (d, o) -> pt px = Some (x, o) -> pt py = Some (y, o) ->
    (o + k) mod 4 = 0 -> defd m d (o + k) (o + k + 4) -> defd m x (o + k) (o + k + 4) -> defd m y (o + k) (o + k + 4) ->
    exists rg' m', run4 ar (line k) (St4 rg pt m) = Some (St4 rg' pt m') /\ inv rg' /\ elemw (o + k) (o + k + 4) m m'.

  Lemma run4_app a b (s : st4 V) : run4 ar (a ++ b) s =
    match run4 ar a s with Some s' => run4 ar b s' | None => None end.
  Proof.
    revert s. induction a as [|i a IH]; intros s; [reflexivity|]. cbn [app run4].
    destruct (exec4 ar i s); [apply IH|reflexivity].
  Qed.

  Lemma lines_ok line : good_line line -> forall n k0 rg pt m o,
    inv rg -> pt pd = Some (d, o) -> pt px = Some (x, o) -> pt py = Some (y, o) ->
    (o + k0) mod 4 = 0 ->
    defd m d (o + k0) (o + k0 + 4 * n) -> defd m x (o + k0) (o + k0 + 4 * n) -> defd m y (o + k0) (o + k0 + 4 * n) ->
    exists rg' m', run4 ar (flat_map line (map (fun i => k0 + 4 * i) (seq 0 n))) (St4 rg pt m) = Some (St4 rg' pt m') /\
      inv rg' /\ elemw (o + k0) (o + k0 + 4 * n) m m'.
  Proof.
    intros G n. induction n as [|n IH]; intros k0 rg pt m o I P1 P2 P3 A D1 D2 D3.
    - exists rg, m. split; [reflexivity|]. split; [exact I|]. rewrite Nat.mul_0_r, Nat.add_0_r. apply elemw_nil.
    - cbn [seq map flat_map]. rewrite run4_app. rewrite Nat.mul_0_r, Nat.add_0_r.
      destruct (G k0 rg pt m o I P1 P2 P3 A) as (rg1 & m1 & E1 & I1 & W1).
      { intros q Hq. apply D1. lia. } { intros q Hq. apply D2. lia. } { intros q Hq. apply D3. lia. }
      rewrite E1.
      assert (S1 : map (fun i => k0 + 4 * i) (seq 1 n) = map (fun i => (k0 + 4) + 4 * i) (seq 0 n)).
      { rewrite <- seq_shift, map_map. apply map_ext. intros i. lia. }
      rewrite S1.
      assert (Dx : defd m x (o + k0) (o + k0 + 4)) by (intros q Hq; apply D2; lia).
      assert (Dy : defd m y (o + k0) (o + k0 + 4)) by (intros q Hq; apply D3; lia).
      destruct (IH (k0 + 4) rg1 pt m1 o I1 P1 P2 P3) as (rg2 & m2 & E2 & I2 & W2).
      { rewrite Nat.add_assoc. rewrite <- Nat.add_mod_idemp_l, A by lia. reflexivity. }
      { apply (elemw_defd _ _ _ _ _ _ _ W1 Dx Dy). intros q Hq. apply D1. lia. }
      { apply (elemw_defd _ _ _ _ _ _ _ W1 Dx Dy). intros q Hq. apply D2. lia. }
      { apply (elemw_defd _ _ _ _ _ _ _ W1 Dx Dy). intros q Hq. apply D3. lia. }
      exists rg2, m2. split; [exact E2|]. split; [exact I2|].
      apply elemw_app with (mid := o + k0 + 4) (m1 := m1); [lia|lia|exact W1|].
      replace (o + (k0 + 4)) with (o + k0 + 4) in W2 by lia.
      replace (o + k0 + 4 * S n) with (o + k0 + 4 + 4 * n) by lia. exact W2.
  Qed.

  (** A loop whose body does [n] lines and moves the pointers. *)
  Definition good_body (n : nat) (body : list instr4) : Prop := forall rg pt m o,
    inv rg -> pt pd = Some (d, o) -> pt px = Some (x, o) -> pt py = Some (y, o) -> o mod 4 = 0 ->
    defd m d o (o + 4 * n) -> defd m x o (o + 4 * n) -> defd m y o (o + 4 * n) ->
    exists rg' pt' m', run4 ar body (St4 rg pt m) = Some (St4 rg' pt' m') /\ inv rg' /\
      pt' pd = Some (d, o + 4 * n) /\ pt' px = Some (x, o + 4 * n) /\ pt' py = Some (y, o + 4 * n) /\
      elemw o (o + 4 * n) m m'.

  Lemma body_of_lines line n bumps : good_line line ->
    (forall rg pt m o, pt pd = Some (d, o) -> pt px = Some (x, o) -> pt py = Some (y, o) ->
      exists pt', run4 ar bumps (St4 rg pt m) = Some (St4 rg pt' m) /\
        pt' pd = Some (d, o + 4 * n) /\ pt' px = Some (x, o + 4 * n) /\ pt' py = Some (y, o + 4 * n)) ->
    good_body n (flat_map line (map (fun i => 4 * i) (seq 0 n)) ++ bumps).
  Proof.
    intros G B rg pt m o I P1 P2 P3 A D1 D2 D3.
    destruct (lines_ok line G n 0 rg pt m o I P1 P2 P3) as (rg1 & m1 & E1 & I1 & W1);
      try (rewrite Nat.add_0_r; assumption).
    rewrite run4_app. cbn [Nat.add] in E1. rewrite E1.
    destruct (B rg1 pt m1 o P1 P2 P3) as (pt' & E2 & Q1 & Q2 & Q3).
    exists rg1, pt', m1. rewrite E2. rewrite Nat.add_0_r in W1. repeat (split; [assumption || reflexivity|]). exact W1.
  Qed.

  Lemma loop_ok n body : good_body n body -> forall c rg pt m o,
    inv rg -> pt pd = Some (d, o) -> pt px = Some (x, o) -> pt py = Some (y, o) -> o mod 4 = 0 ->
    defd m d o (o + 4 * n * c) -> defd m x o (o + 4 * n * c) -> defd m y o (o + 4 * n * c) ->
    exists s', loop4 ar c body (St4 rg pt m) = Some s' /\ elemw o (o + 4 * n * c) m (mem4 s').
  Proof.
    intros G c. induction c as [|c IH]; intros rg pt m o I P1 P2 P3 A D1 D2 D3.
    - exists (St4 rg pt m). split; [reflexivity|]. rewrite Nat.mul_0_r, Nat.add_0_r. apply elemw_nil.
    - rewrite Nat.mul_succ_r in *.
      destruct (G rg pt m o I P1 P2 P3 A) as (rg1 & pt1 & m1 & E1 & I1 & Q1 & Q2 & Q3 & W1).
      { intros q Hq. apply D1. lia. } { intros q Hq. apply D2. lia. } { intros q Hq. apply D3. lia. }
      assert (Dx : defd m x o (o + 4 * n)) by (intros q Hq; apply D2; lia).
      assert (Dy : defd m y o (o + 4 * n)) by (intros q Hq; apply D3; lia).
      destruct (IH rg1 pt1 m1 (o + 4 * n) I1 Q1 Q2 Q3) as (s' & E2 & W2).
      { rewrite <- Nat.add_mod_idemp_l, A by lia. cbn [Nat.add]. rewrite Nat.mul_comm. apply Nat.mod_mul. lia. }
      { apply (elemw_defd _ _ _ _ _ _ _ W1 Dx Dy). intros q Hq. apply D1. lia. }
      { apply (elemw_defd _ _ _ _ _ _ _ W1 Dx Dy). intros q Hq. apply D2. lia. }
      { apply (elemw_defd _ _ _ _ _ _ _ W1 Dx Dy). intros q Hq. apply D3. lia. }
      exists s'. cbn [loop4]. rewrite E1. split; [exact E2|].
      apply elemw_app with (mid := o + 4 * n) (m1 := m1); [lia|lia|exact W1|].
      replace (o + (4 * n * c + 4 * n)) with (o + 4 * n + 4 * n * c) by lia. exact W2.
  Qed.
End Elem.

Lemma ap4 {A} (f : N -> option A) k v k' : set4 f k v k' = if N.eqb k' k then Some v else f k'.
Proof. reflexivity. Qed.

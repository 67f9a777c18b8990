From Coq Require Import List Bool Arith NArith ZArith Lia.
From Coq Require Import Ring_theory InitialRing Ring_polynom.
From Verif Require Import EvalModel EvalProofs SseMachine SseKernels SseSpec SseEval SseProofs.
Import ListNotations.
Open Scope nat_scope.

(** ** Matrices as lists of words *)
Definition words {V} (A : matrix V) : list V :=
  flat_map (fun r => flat_map (fun c => [fst (A r c); snd (A r c)]) (seq 0 3)) (seq 0 3).
Definition word {V} (A : matrix V) (j : nat) : V := nth j (words A) (fst (A 0 0)).
Definition unword {V} (f : nat -> V) : matrix V := fun r c => (f (6 * r + 2 * c), f (6 * r + 2 * c + 1)).

Lemma word_at {V} (A : matrix V) r c : r < 3 -> c < 3 ->
  word A (6 * r + 2 * c) = fst (A r c) /\ word A (6 * r + 2 * c + 1) = snd (A r c).
Proof.
  intros Hr Hc. destruct r as [|[|[|r]]]; [| | |lia]; destruct c as [|[|[|c]]]; try lia;
    split; reflexivity.
Qed.

Lemma mat_words {V} (m : mem V) b o A : mat_at m b o A <-> forall j, j < 18 -> m b (o + j) = Some (word A j).
Proof.
  split.
  - intros H j Hj. specialize (H (j / 6) ((j mod 6) / 2)).
    do 18 (destruct j as [|j]; [cbn [Nat.div Nat.modulo Nat.divmod fst snd Nat.sub] in H;
      cbn - [Nat.add] in H; destruct H as [H1 H2]; try lia;
      first [rewrite <- (proj1 (word_at A 0 0 ltac:(lia) ltac:(lia))) in H1 | idtac];
      repeat rewrite <- Nat.add_assoc in H1, H2; cbn [Nat.add] in H1, H2;
      first [exact H1 | exact H2]|]).
    lia.
  - intros H r c Hr Hc. destruct (word_at A r c Hr Hc) as [W1 W2].
    rewrite <- W1, <- W2, <- !Nat.add_assoc. split; apply H; lia.
Qed.

Lemma find_lt (P : nat -> Prop) (dec : forall w, {P w} + {~ P w}) nw :
  (exists w, w < nw /\ P w) \/ (forall w, w < nw -> ~ P w).
Proof.
  induction nw as [|nw [[w [H1 H2]]|IH]].
  - right. intros w H. lia.
  - left. exists w. split; [lia|assumption].
  - destruct (dec nw) as [H|H].
    + left. exists nw. split; [lia|assumption].
    + right. intros w Hw. destruct (Nat.eq_dec w nw) as [->|N]; [assumption|]. apply IH. lia.
Qed.

(** ** A kernel that changes the first of its windows *)
Section Pat.
  Variable R : cring.
  Let ar := arith_of R.
  Variables (k : kernel) (n : nat) (args : list (N * (nat * nat))) (sz nw : nat).
  Variables (lp : list (N * nat)) (blk off : nat -> nat) (T : nat) (m : mem R).
  Variables (f : nat -> nat -> nat -> R) (g : nat -> nat -> R).  (* window, pass, word *)
  Variables (c : list (N * (R * R))).
  Variables (par : list bool) (cI : list (N * (expr * expr))) (wI wO : list (list expr)).
  Variable env : nat -> list R.

  Hypothesis Hnw : 0 < nw.
  Hypothesis Hsz : Nat.odd sz = false /\ 0 < sz.
  Hypothesis Hpre : exists s, exec ar (k_pre k) (St [] args m) = Some s /\ sub c (regs s) /\
    (forall q w, get q lp = Some w -> get q (ptrs s) = Some (blk w, off w)) /\ memory s = m.
  Hypothesis Hpost : k_post k = [].
  Hypothesis HT : k_times k n = T.
  Hypothesis Hpar : forall w, nth w par false = Nat.odd (off w).
  Hypothesis Hap : forall w w', w < nw -> w' < nw -> w <> w' ->
    apart (blk w) (off w) (blk w') (off w') (T * sz).
  Hypothesis Hm : forall w i j, w < nw -> i < T -> j < sz ->
    m (blk w) (off w + i * sz + j) = Some (f w i j).
  Hypothesis Hck : check (k_body k n) par lp sz nw cI wI cI wO = true.
  Hypothesis HcI : forall i, vmap (pmap (ev R (env i))) cI = c.
  Hypothesis HwI : forall i, wmap (ev R (env i)) wI = wins nw sz (fun w => f w i).
  Hypothesis HwO : forall i, wmap (ev R (env i)) wO =
    wins nw sz (fun w => if w =? 0 then g i else f w i).

  Lemma pat_call : exists m', call ar k args n m = Some m' /\
    (forall i j, i < T -> j < sz -> m' (blk 0) (off 0 + i * sz + j) = Some (g i j)) /\
    only m m' (blk 0) (off 0) (T * sz).
  Proof.
    destruct Hpre as [s [E [P1 [P2 P3]]]]. destruct Hsz as [Hev Hpos].
    destruct (passes R (k_body k n) lp sz nw blk off T m (fun i w => f w i)
                (fun i w => if w =? 0 then g i else f w i) (fun _ => c) par cI cI wI wO env Hev Hpar Hap)
      with (s := s) as [s' [S1 [_ [_ [S4 S5]]]]]; auto.
    exists (memory s'). split; [|split].
    - unfold call. rewrite E, HT. fold ar in S1. rewrite S1, Hpost. reflexivity.
    - intros i j Hi Hj. rewrite (S4 0 i j Hnw Hi Hj). reflexivity.
    - intros b o Hno.
      destruct (find_lt (fun w => b = blk w /\ off w <= o < off w + T * sz)) with (nw := nw)
        as [[w [Hw [-> Ho]]]|Hall].
      + intros w. destruct (Nat.eq_dec b (blk w)); [|right; tauto].
        destruct (le_dec (off w) o); [|right; tauto].
        destruct (lt_dec o (off w + T * sz)); [left|right]; tauto.
      + destruct (Nat.eq_dec w 0) as [->|N]; [exfalso; apply Hno; split; [reflexivity|exact Ho]|].
        set (x := o - off w). assert (Hx : x < T * sz) by (unfold x; lia).
        pose proof (Nat.div_mod x sz ltac:(lia)) as D.
        pose proof (Nat.mod_upper_bound x sz ltac:(lia)) as U.
        assert (Hi : x / sz < T) by (apply Nat.div_lt_upper_bound; lia).
        replace o with (off w + x / sz * sz + x mod sz) by (unfold x in *; lia).
        rewrite (S4 w _ _ Hw Hi U), (Hm w _ _ Hw Hi U).
        destruct (w =? 0) eqn:Z; [apply Nat.eqb_eq in Z; contradiction|reflexivity].
      + apply S5. exact Hall.
  Qed.
End Pat.

(** ** Products *)
Definition product_of {V} (ar : arith V) (g : assign) (hl hr : bool) (a : V) (D L R : matrix V) : matrix V :=
  match g with
  | OpEq => mmul ar (dag ar hl L) (dag ar hr R)
  | _ => madd ar D (mscale ar a (mmul ar (dag ar hl L) (dag ar hr R)))
  end.

Definition var (i : nat) : expr := PEX Z (Pos.of_nat (S i)).
Definition swin (nsc sz nw : nat) : list (list expr) := wins nw sz (fun w j => var (nsc + sz * w + j)).
Definition smat (nsc w : nat) : matrix expr := unword (fun j => var (nsc + 18 * w + j)).
Definition senv {V} (sc : list V) (nw sz : nat) (f : nat -> nat -> V) : list V :=
  sc ++ flat_map (fun w => map (f w) (seq 0 sz)) (seq 0 nw).
Definition splat {V} (ar : arith V) (a : V) : V * V := (a_add ar a (a_ofZ ar 0), a_add ar (a_ofZ ar 0) a).

Definition scalar_reg {V} (ar : arith V) (g : assign) (a : V) : list (N * (V * V)) :=
  match g with OpEq => [] | _ => [(r_scalar, splat ar a)] end.

Definition prod_out (g : assign) (hl hr : bool) (nw cl cr : nat) : list (list expr) :=
  match swin 1 18 nw with
  | _ :: t => words (product_of ear g hl hr (var 0) (smat 1 0) (smat 1 cl) (smat 1 cr)) :: t
  | [] => []
  end.
Definition prod_lp (cl cr : nat) : list (N * nat) := [(p_m3_p, 0); (p_m2_p, cl); (p_m1_p, cr)].

Definition prod_check (body : list instr) (par : list bool) (g : assign) (hl hr : bool) (nw cl cr : nat) : bool :=
  check body par (prod_lp cl cr) 18 nw (scalar_reg ear g (var 0)) (swin 1 18 nw)
    (scalar_reg ear g (var 0)) (prod_out g hl hr nw cl cr).

Lemma words_eq {V} (A B : matrix V) : words A = words B -> word A = word B.
Proof.
  intros H. unfold word. assert (E : fst (A 0 0) = fst (B 0 0)) by (unfold words in H; cbn in H; congruence).
  rewrite E, H. reflexivity.
Qed.

Lemma words_same {V} (m : mem V) b o A B : mat_at m b o A -> mat_at m b o B -> words A = words B.
Proof.
  rewrite !mat_words. intros HA HB. assert (E : forall j, j < 18 -> word A j = word B j).
  { intros j Hj. specialize (HA j Hj). specialize (HB j Hj). congruence. }
  unfold words. cbn.
  pose proof (E 0 ltac:(lia)) as E0. pose proof (E 1 ltac:(lia)) as E1. pose proof (E 2 ltac:(lia)) as E2.
  pose proof (E 3 ltac:(lia)) as E3. pose proof (E 4 ltac:(lia)) as E4. pose proof (E 5 ltac:(lia)) as E5.
  pose proof (E 6 ltac:(lia)) as E6. pose proof (E 7 ltac:(lia)) as E7. pose proof (E 8 ltac:(lia)) as E8.
  pose proof (E 9 ltac:(lia)) as E9. pose proof (E 10 ltac:(lia)) as E10. pose proof (E 11 ltac:(lia)) as E11.
  pose proof (E 12 ltac:(lia)) as E12. pose proof (E 13 ltac:(lia)) as E13. pose proof (E 14 ltac:(lia)) as E14.
  pose proof (E 15 ltac:(lia)) as E15. pose proof (E 16 ltac:(lia)) as E16. pose proof (E 17 ltac:(lia)) as E17.
  unfold word, words in *. cbn in *. congruence.
Qed.

Lemma product_words {V} (ar : arith V) g hl hr a D L R :
  words (product_of ar g hl hr a D L R) =
  words (product_of ar g hl hr a (unword (word D)) (unword (word L)) (unword (word R))).
Proof. destruct g, hl, hr; reflexivity. Qed.

(** Which of the fields may be the same. *)
Definition fine (hl : bool) (d l r : nat * nat) (len : nat) : Prop :=
  let ap (x y : nat * nat) := apart (fst x) (snd x) (fst y) (snd y) len in
  (ap d l /\ ap d r /\ (l = r \/ ap l r)) \/ (d = l /\ hl = false /\ ap d r).

Section Product.
  Variable R : cring.
  Let ar := arith_of R.
  Variables (k : kernel) (g : assign) (hl hr : bool) (n : nat) (args : list (N * (nat * nat))).
  Variables (d l r : nat * nat) (a : R) (m : mem R) (al : bool).
  Variables (D L Q : nat -> matrix R).

  Hypothesis Hpost : k_post k = [].
  Hypothesis HT : k_times k n = n.
  Hypothesis Hpre : exists s, exec ar (k_pre k) (St [] args m) = Some s /\
    sub (scalar_reg ar g a) (regs s) /\
    (get p_m3_p (ptrs s) = Some d /\ get p_m2_p (ptrs s) = Some l /\ get p_m1_p (ptrs s) = Some r) /\
    memory s = m.
  Hypothesis Hev : al = true -> Nat.odd (snd d) = false /\ Nat.odd (snd l) = false /\ Nat.odd (snd r) = false.
  Hypothesis Hck : forall par, (al = true -> par = []) -> (al = false -> length par = 3) ->
    prod_check (k_body k n) par g hl hr 3 1 2 = true /\
    prod_check (k_body k n) par g hl hr 2 1 1 = true /\
    (hl = false -> prod_check (k_body k n) par g hl hr 2 0 1 = true).
  Hypothesis Hfine : fine hl d l r (18 * n).
  Hypothesis HD : mats_at m (fst d) (snd d) n D.
  Hypothesis HL : mats_at m (fst l) (snd l) n L.
  Hypothesis HQ : mats_at m (fst r) (snd r) n Q.

  Definition pars (x y z : nat * nat) : list bool :=
    if al then [] else [Nat.odd (snd x); Nat.odd (snd y); Nat.odd (snd z)].

  Lemma pars_ok x y z : (al = true -> Nat.odd (snd x) = false /\ Nat.odd (snd y) = false /\ Nat.odd (snd z) = false) ->
    forall w, nth w (pars x y z) false = Nat.odd (if w <? 3 then snd (nth w [x; y; z] z) else 0).
  Proof.
    intros H w. unfold pars. destruct al.
    - destruct H as [H1 [H2 H3]]; [reflexivity|]. destruct w as [|[|[|w]]]; cbn; try congruence.
    - destruct w as [|[|[|w]]]; cbn; try reflexivity. destruct w; reflexivity.
  Qed.

  Lemma product_call : exists m', call ar k args n m = Some m' /\
    mats_at m' (fst d) (snd d) n (fun i => product_of ar g hl hr a (D i) (L i) (Q i)) /\
    only m m' (fst d) (snd d) (18 * n).
  Proof.
    assert (G : forall nw cl cr (x y z : nat * nat) (F : nat -> nat -> matrix R),
      (nw = 3 /\ cl = 1 /\ cr = 2) \/ (nw = 2 /\ cl = 1 /\ cr = 1) \/ (nw = 2 /\ cl = 0 /\ cr = 1 /\ hl = false) ->
      x = d -> nth cl [x; y; z] z = l -> nth cr [x; y; z] z = r ->
      (al = true -> Nat.odd (snd y) = false /\ Nat.odd (snd z) = false) ->
      (forall w w', w < nw -> w' < nw -> w <> w' ->
         apart (fst (nth w [x; y; z] z)) (snd (nth w [x; y; z] z))
               (fst (nth w' [x; y; z] z)) (snd (nth w' [x; y; z] z)) (18 * n)) ->
      (forall w, w < nw -> mats_at m (fst (nth w [x; y; z] z)) (snd (nth w [x; y; z] z)) n (F w)) ->
      exists m', call ar k args n m = Some m' /\
      mats_at m' (fst d) (snd d) n (fun i => product_of ar g hl hr a (F 0 i) (F cl i) (F cr i)) /\
      only m m' (fst d) (snd d) (18 * n)).
    { intros nw cl cr x y z F Hcase Hx Hy Hz Hevs Hap Hm.
      set (blk := fun w => fst (nth w [x; y; z] z)).
      set (off := fun w => if w <? 3 then snd (nth w [x; y; z] z) else 0).
      assert (Hck' : prod_check (k_body k n) (pars x y z) g hl hr nw cl cr = true).
      { destruct (Hck (pars x y z)) as [C1 [C2 C3]].
        - intros H. unfold pars. rewrite H. reflexivity.
        - intros H. unfold pars. rewrite H. reflexivity.
        - destruct Hcase as [[-> [-> ->]]|[[-> [-> ->]]|[-> [-> [-> E]]]]]; auto. }
      assert (Hoff : forall w, w < nw -> off w = snd (nth w [x; y; z] z)).
      { intros w Hw. unfold off. destruct (w <? 3) eqn:E; [reflexivity|]. apply Nat.ltb_ge in E. lia. }
      destruct (pat_call R k n args 18 nw (prod_lp cl cr) blk off n m
                  (fun w i => word (F w i))
                  (fun i => word (product_of ar g hl hr a (unword (word (F 0 i))) (unword (word (F cl i))) (unword (word (F cr i)))))
                  (scalar_reg ar g a) (pars x y z) (scalar_reg ear g (var 0)) (swin 1 18 nw)
                  (prod_out g hl hr nw cl cr) (fun i => senv [a] nw 18 (fun w => word (F w i))))
        as [m' [E1 [E2 E3]]].
      - lia.
      - split; [reflexivity|lia].
      - destruct Hpre as [s [S1 [S2 [[S3 [S4 S5]] S6]]]]. exists s. split; [exact S1|]. split; [exact S2|].
        split; [|exact S6].
        assert (Hb : forall w, w < 3 -> (blk w, off w) = nth w [x; y; z] z).
        { intros w Hw. unfold blk, off. apply Nat.ltb_lt in Hw. rewrite Hw. symmetry. apply surjective_pairing. }
        intros q w. unfold prod_lp. cbn [get].
        destruct (N.eqb q p_m3_p) eqn:Q1; [|destruct (N.eqb q p_m2_p) eqn:Q2; [|destruct (N.eqb q p_m1_p) eqn:Q3; [|discriminate]]];
          intros X; injection X as <-; rewrite Hb by lia.
        + apply N.eqb_eq in Q1. subst q. cbn [nth]. rewrite Hx. exact S3.
        + apply N.eqb_eq in Q2. subst q. rewrite Hy. exact S4.
        + apply N.eqb_eq in Q3. subst q. rewrite Hz. exact S5.
      - exact Hpost.
      - exact HT.
      - intros w. apply pars_ok. intros A. destruct (Hevs A) as [B C]. destruct (Hev A) as [B' _].
        rewrite Hx. auto.
      - intros w w' Hw Hw' Hne. rewrite !Hoff by assumption. rewrite Nat.mul_comm. apply Hap; assumption.
      - intros w i j Hw Hi Hj. rewrite Hoff by assumption. specialize (Hm w Hw i Hi).
        rewrite mat_words in Hm. rewrite (Nat.mul_comm i 18). apply Hm. exact Hj.
      - exact Hck'.
      - intros i. destruct g; reflexivity.
      - intros i. destruct Hcase as [[-> [-> ->]]|[[-> [-> ->]]|[-> [-> [-> E]]]]]; reflexivity.
      - intros i. destruct Hcase as [[-> [-> ->]]|[[-> [-> ->]]|[-> [-> [-> E]]]]]; destruct g, hl, hr; reflexivity.
      - exists m'. split; [exact E1|]. rewrite Hoff in E2, E3 by lia. unfold blk in E2, E3. cbn [nth] in E2, E3.
        rewrite Hx, (Nat.mul_comm n) in E3. split; [|exact E3].
        intros i Hi. rewrite mat_words. intros j Hj. specialize (E2 i j Hi Hj).
        rewrite (Nat.mul_comm i 18) in E2. rewrite Hx in E2. rewrite E2. f_equal.
        rewrite (words_eq _ _ (product_words ar g hl hr a (F 0 i) (F cl i) (F cr i))). reflexivity. }
    destruct Hfine as [[A1 [A2 [A3|A3]]]|[A1 [A2 A3]]].
    - subst r. destruct (G 2 1 1 d l l (fun w => match w with 0 => D | _ => L end)) as [m' [E1 [E2 E3]]]; auto.
      + intros A. destruct (Hev A) as [? [? ?]]. auto.
      + intros w w' Hw Hw' Hne. destruct w as [|[|w]], w' as [|[|w']]; try lia; cbn [nth]; auto.
        destruct A1 as [A|[A|A]]; [left; congruence|right; right; exact A|right; left; exact A].
      + intros w Hw. destruct w as [|[|w]]; try lia; cbn [nth]; auto.
      + exists m'. split; [exact E1|]. split; [|exact E3].
        intros i Hi. specialize (E2 i Hi). rewrite mat_words in *. intros j Hj. rewrite (E2 j Hj). f_equal.
        pose proof (words_eq _ _ (words_same _ _ _ _ _ (HL i Hi) (HQ i Hi))) as W.
        rewrite (words_eq _ _ (product_words ar g hl hr a (D i) (L i) (L i))).
        rewrite (words_eq _ _ (product_words ar g hl hr a (D i) (L i) (Q i))). rewrite <- W. reflexivity.
    - apply (G 3 1 2 d l r (fun w => match w with 0 => D | 1 => L | _ => Q end)); auto.
      + intros A. destruct (Hev A) as [? [? ?]]. auto.
      + assert (S : forall x y x' y', apart x y x' y' (18 * n) -> apart x' y' x y (18 * n)).
        { intros x y x' y' [A|[A|A]]; [left; congruence|right; right; exact A|right; left; exact A]. }
        intros w w' Hw Hw' Hne. destruct w as [|[|[|w]]], w' as [|[|[|w']]]; try lia; cbn [nth]; auto.
      + intros w Hw. destruct w as [|[|[|w]]]; try lia; cbn [nth]; auto.
    - subst l. destruct (G 2 0 1 d r r (fun w => match w with 0 => D | _ => Q end)) as [m' [E1 [E2 E3]]]; auto 6.
      + intros A. destruct (Hev A) as [? [? ?]]. auto.
      + intros w w' Hw Hw' Hne. destruct w as [|[|w]], w' as [|[|w']]; try lia; cbn [nth]; auto.
        destruct A3 as [A|[A|A]]; [left; congruence|right; right; exact A|right; left; exact A].
      + intros w Hw. destruct w as [|[|w]]; try lia; cbn [nth]; auto.
      + exists m'. split; [exact E1|]. split; [|exact E3].
        intros i Hi. specialize (E2 i Hi). rewrite mat_words in *. intros j Hj. rewrite (E2 j Hj). f_equal.
        pose proof (words_eq _ _ (words_same _ _ _ _ _ (HD i Hi) (HL i Hi))) as W.
        rewrite (words_eq _ _ (product_words ar g hl hr a (D i) (D i) (Q i))).
        rewrite (words_eq _ _ (product_words ar g hl hr a (D i) (L i) (Q i))). rewrite <- W. reflexivity.
  Qed.
End Product.

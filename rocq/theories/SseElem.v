From Coq Require Import List Bool Arith NArith ZArith Lia.
From Coq Require Import Ring_theory InitialRing Ring_polynom.
From Verif Require Import SseMachine SseKernels SseSpec SseProofs SseMatrix.
Import ListNotations.
Open Scope nat_scope.

(** ** Kernels that work word by word: z_j = E(z_j, x_j, y_j) *)

(** Which of z, x, y are the same array: (number of arrays, x, y). *)
Definition two_pats : list (nat * nat * nat) := [(2, 1, 1); (1, 0, 0)].
Definition three_pats : list (nat * nat * nat) := [(3, 1, 2); (2, 1, 1); (2, 0, 1); (2, 1, 0); (1, 0, 0)].

Definition elem_out (nsc sz nw cx cy : nat) (Ee : expr -> expr -> expr -> expr) : list (list expr) :=
  match swin nsc sz nw with
  | _ :: t => map (fun j => Ee (var (nsc + j)) (var (nsc + sz * cx + j)) (var (nsc + sz * cy + j))) (seq 0 sz) :: t
  | [] => []
  end.

Definition same_or_apart (x y : nat * nat) (len : nat) : Prop :=
  x = y \/ apart (fst x) (snd x) (fst y) (snd y) len.

Lemma apart_sym b o b' o' len : apart b o b' o' len -> apart b' o' b o len.
Proof. intros [A|[A|A]]; [left; congruence|right; right; exact A|right; left; exact A]. Qed.

Section Elem.
  Variable R : cring.
  Let ar := arith_of R.
  Variables (k : kernel) (n : nat) (args : list (N * (nat * nat))).
  Variables (sz T : nat) (pats : list (nat * nat * nat)) (pz px py : N).
  Variables (z x y : nat * nat) (sc : list R) (m : mem R).
  Variables (sregE : list (N * (expr * expr))) (sregR : list (N * (R * R))).
  Variables (Ee : expr -> expr -> expr -> expr) (Er : R -> R -> R -> R).
  Variables (fz fx fy : nat -> R).

  Definition lp3 (cx cy : nat) : list (N * nat) := [(pz, 0); (px, cx); (py, cy)].

  Hypothesis Hsz : Nat.odd sz = false /\ 0 < sz.
  Hypothesis Hpost : k_post k = [].
  Hypothesis HT : k_times k n = T.
  Hypothesis Hpre : exists s, exec ar (k_pre k) (St [] args m) = Some s /\ sub sregR (regs s) /\
    (get pz (ptrs s) = Some z /\ get px (ptrs s) = Some x /\ get py (ptrs s) = Some y) /\ memory s = m.
  Hypothesis Hev : Nat.odd (snd z) = false /\ Nat.odd (snd x) = false /\ Nat.odd (snd y) = false.
  Hypothesis Hck : forall nw cx cy, In (nw, cx, cy) pats ->
    check (k_body k n) [] (lp3 cx cy) sz nw sregE (swin (length sc) sz nw) sregE
      (elem_out (length sc) sz nw cx cy Ee) = true.
  Hypothesis Hsym : forall nw cx cy F, In (nw, cx, cy) pats ->
    vmap (pmap (ev R (senv sc nw sz F))) sregE = sregR /\
    wmap (ev R (senv sc nw sz F)) (swin (length sc) sz nw) = wins nw sz F /\
    wmap (ev R (senv sc nw sz F)) (elem_out (length sc) sz nw cx cy Ee) =
      wins nw sz (fun w => if w =? 0 then (fun j => Er (F 0 j) (F cx j) (F cy j)) else F w).
  Hypothesis Hpats : pats = three_pats \/ (pats = two_pats /\ x = y).
  Hypothesis Hzx : same_or_apart z x (T * sz).
  Hypothesis Hzy : same_or_apart z y (T * sz).
  Hypothesis Hxy : same_or_apart x y (T * sz).
  Hypothesis Hz : words_at m (fst z) (snd z) (T * sz) fz.
  Hypothesis Hx : words_at m (fst x) (snd x) (T * sz) fx.
  Hypothesis Hy : words_at m (fst y) (snd y) (T * sz) fy.

  Lemma elem_call : exists m', call ar k args n m = Some m' /\
    words_at m' (fst z) (snd z) (T * sz) (fun j => Er (fz j) (fx j) (fy j)) /\
    only m m' (fst z) (snd z) (T * sz).
  Proof.
    assert (G : forall nw cx cy (u v : nat * nat) (F : nat -> nat -> R), In (nw, cx, cy) pats ->
      0 < nw <= 3 -> cx < nw -> cy < nw ->
      nth cx [z; u; v] v = x -> nth cy [z; u; v] v = y ->
      Nat.odd (snd u) = false -> Nat.odd (snd v) = false ->
      (forall w w', w < nw -> w' < nw -> w <> w' ->
         apart (fst (nth w [z; u; v] v)) (snd (nth w [z; u; v] v))
               (fst (nth w' [z; u; v] v)) (snd (nth w' [z; u; v] v)) (T * sz)) ->
      (forall w, w < nw -> words_at m (fst (nth w [z; u; v] v)) (snd (nth w [z; u; v] v)) (T * sz) (F w)) ->
      exists m', call ar k args n m = Some m' /\
      words_at m' (fst z) (snd z) (T * sz) (fun j => Er (F 0 j) (F cx j) (F cy j)) /\
      only m m' (fst z) (snd z) (T * sz)).
    { intros nw cx cy u v F Hin Hnw Hcx Hcy Hx' Hy' Hu Hv Hap Hm.
      set (blk := fun w => fst (nth w [z; u; v] v)).
      set (off := fun w => if w <? 3 then snd (nth w [z; u; v] v) else 0).
      assert (Hoff : forall w, w < nw -> off w = snd (nth w [z; u; v] v)).
      { intros w Hw. unfold off. destruct (w <? 3) eqn:E; [reflexivity|]. apply Nat.ltb_ge in E. lia. }
      destruct (pat_call R k n args sz nw (lp3 cx cy) blk off T m
                  (fun w i j => F w (i * sz + j))
                  (fun i j => Er (F 0 (i * sz + j)) (F cx (i * sz + j)) (F cy (i * sz + j)))
                  sregR [] sregE (swin (length sc) sz nw) (elem_out (length sc) sz nw cx cy Ee)
                  (fun i => senv sc nw sz (fun w j => F w (i * sz + j))))
        as [m' [E1 [E2 E3]]].
      - lia.
      - exact Hsz.
      - destruct Hpre as [s [S1 [S2 [[S3 [S4 S5]] S6]]]]. exists s. split; [exact S1|]. split; [exact S2|].
        split; [|exact S6].
        assert (Hb : forall w, w < 3 -> (blk w, off w) = nth w [z; u; v] v).
        { intros w Hw. unfold blk, off. apply Nat.ltb_lt in Hw. rewrite Hw. symmetry. apply surjective_pairing. }
        intros q w. unfold lp3. cbn [get].
        destruct (N.eqb q pz) eqn:Q1; [|destruct (N.eqb q px) eqn:Q2; [|destruct (N.eqb q py) eqn:Q3; [|discriminate]]];
          intros X; injection X as <-; rewrite Hb by lia.
        + apply N.eqb_eq in Q1. subst q. cbn [nth]. exact S3.
        + apply N.eqb_eq in Q2. subst q. rewrite Hx'. exact S4.
        + apply N.eqb_eq in Q3. subst q. rewrite Hy'. exact S5.
      - exact Hpost.
      - exact HT.
      - intros w. destruct Hev as [V1 _]. unfold off. destruct w as [|[|[|w]]]; cbn; auto.
      - intros w w' Hw Hw' Hne. rewrite !Hoff by assumption. apply Hap; assumption.
      - intros w i j Hw Hi Hj. rewrite Hoff by assumption. rewrite <- Nat.add_assoc. apply (Hm w Hw). nia.
      - apply Hck. exact Hin.
      - intros i. apply (Hsym nw cx cy _ Hin).
      - intros i. apply (Hsym nw cx cy _ Hin).
      - intros i. rewrite (proj2 (proj2 (Hsym nw cx cy _ Hin))). unfold wins. apply map_ext. intros w.
        destruct (w =? 0); reflexivity.
      - exists m'. split; [exact E1|]. rewrite Hoff in E2, E3 by lia. unfold blk in E2, E3. cbn [nth] in E2, E3.
        split; [|exact E3]. intros j Hj.
        pose proof (Nat.div_mod j sz ltac:(lia)) as DM. pose proof (Nat.mod_upper_bound j sz ltac:(lia)) as U.
        assert (Hi : j / sz < T) by (apply Nat.div_lt_upper_bound; lia).
        specialize (E2 _ _ Hi U). rewrite <- Nat.add_assoc in E2.
        replace (j / sz * sz + j mod sz) with j in E2 by lia. exact E2. }
    assert (Sxz : z = x -> forall j, j < T * sz -> fz j = fx j).
    { intros E j Hj. specialize (Hz j Hj). specialize (Hx j Hj). rewrite <- E in Hx. congruence. }
    assert (Syz : z = y -> forall j, j < T * sz -> fz j = fy j).
    { intros E j Hj. specialize (Hz j Hj). specialize (Hy j Hj). rewrite <- E in Hy. congruence. }
    assert (Sxy : x = y -> forall j, j < T * sz -> fx j = fy j).
    { intros E j Hj. specialize (Hx j Hj). specialize (Hy j Hj). rewrite <- E in Hy. congruence. }
    destruct Hev as [V1 [V2 V3]].
    assert (fin : forall nw cx cy u v F, In (nw, cx, cy) pats ->
      0 < nw <= 3 -> cx < nw -> cy < nw ->
      nth cx [z; u; v] v = x -> nth cy [z; u; v] v = y ->
      Nat.odd (snd u) = false -> Nat.odd (snd v) = false ->
      (forall w w', w < w' -> w' < nw ->
         apart (fst (nth w [z; u; v] v)) (snd (nth w [z; u; v] v))
               (fst (nth w' [z; u; v] v)) (snd (nth w' [z; u; v] v)) (T * sz)) ->
      (forall w, w < nw -> words_at m (fst (nth w [z; u; v] v)) (snd (nth w [z; u; v] v)) (T * sz) (F w)) ->
      (forall j, j < T * sz -> F 0 j = fz j /\ F cx j = fx j /\ F cy j = fy j) ->
      exists m', call ar k args n m = Some m' /\
      words_at m' (fst z) (snd z) (T * sz) (fun j => Er (fz j) (fx j) (fy j)) /\
      only m m' (fst z) (snd z) (T * sz)).
    { intros nw cx cy u v F A1 A2 A3 A4 A5 A6 A7 A8 A9 A10 A11.
      destruct (G nw cx cy u v F A1 A2 A3 A4 A5 A6 A7 A8) as [m' [E1 [E2 E3]]]; [|exact A10|].
      - intros w w' Hw Hw' Hne. destruct (lt_dec w w'); [apply A9; assumption|].
        apply apart_sym. apply A9; lia.
      - exists m'. split; [exact E1|]. split; [|exact E3]. intros j Hj. rewrite (E2 j Hj).
        destruct (A11 j Hj) as [-> [-> ->]]. reflexivity. }
    destruct Hpats as [P|[P Q]].
    - destruct Hzx as [Ezx|Azx], Hzy as [Ezy|Azy].
      + apply (fin 1 0 0 z z (fun _ => fz)); rewrite ?P; cbn [In three_pats nth]; auto 10 with arith.
        * intros w w' ? ?. lia.
        * intros w Hw. destruct w; [exact Hz|lia].
      + apply (fin 2 0 1 y y (fun w => match w with 0 => fz | _ => fy end));
          rewrite ?P; cbn [In three_pats nth]; auto 10 with arith.
        * intros w w' ? ?. destruct w as [|w], w' as [|[|w']]; try lia. cbn [nth]. exact Azy.
        * intros w Hw. destruct w as [|[|w]]; [exact Hz|exact Hy|lia].
      + apply (fin 2 1 0 x x (fun w => match w with 0 => fz | _ => fx end));
          rewrite ?P; cbn [In three_pats nth]; auto 10 with arith.
        * intros w w' ? ?. destruct w as [|w], w' as [|[|w']]; try lia. cbn [nth]. exact Azx.
        * intros w Hw. destruct w as [|[|w]]; [exact Hz|exact Hx|lia].
      + destruct Hxy as [Exy|Axy].
        * apply (fin 2 1 1 x x (fun w => match w with 0 => fz | _ => fx end));
            rewrite ?P; cbn [In three_pats nth]; auto 10 with arith.
          -- intros w w' ? ?. destruct w as [|w], w' as [|[|w']]; try lia. cbn [nth]. exact Azx.
          -- intros w Hw. destruct w as [|[|w]]; [exact Hz|exact Hx|lia].
        * apply (fin 3 1 2 x y (fun w => match w with 0 => fz | 1 => fx | _ => fy end));
            rewrite ?P; cbn [In three_pats nth]; auto 10 with arith.
          -- intros w w' ? ?. destruct w as [|[|w]], w' as [|[|[|w']]]; try lia; cbn [nth]; assumption.
          -- intros w Hw. destruct w as [|[|[|w]]]; [exact Hz|exact Hx|exact Hy|lia].
    - destruct Hzx as [Ezx|Azx].
      + apply (fin 1 0 0 z z (fun _ => fz)); rewrite ?P; cbn [In two_pats nth]; auto 10 with arith.
        * congruence.
        * intros w w' ? ?. lia.
        * intros w Hw. destruct w; [exact Hz|lia].
        * intros j Hj. split; [reflexivity|]. split; [auto|apply Syz; [congruence|exact Hj]].
      + apply (fin 2 1 1 x x (fun w => match w with 0 => fz | _ => fx end));
          rewrite ?P; cbn [In two_pats nth]; auto 10 with arith.
        * intros w w' ? ?. destruct w as [|w], w' as [|[|w']]; try lia. cbn [nth]. exact Azx.
        * intros w Hw. destruct w as [|[|w]]; [exact Hz|exact Hx|lia].
  Qed.
End Elem.

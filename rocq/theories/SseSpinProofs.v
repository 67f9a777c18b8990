From Coq Require Import List Bool Arith NArith ZArith Lia Ring.
From Verif Require Import SseMachine SseSpec SseBlasSpec SseBlasProofs Sse4Machine SseSpinMachine SseSpinKernels SseSpinSpec SseSpinWindow SseSpinCases.
Import ListNotations.
Open Scope nat_scope.

Lemma iterations_pos n : 1 <= n -> (N.of_nat n <= 2 ^ 32)%N -> iterations (N.of_nat n) = n - 1.
Proof.
  intros A B. unfold iterations.
  replace (N.of_nat n + (2 ^ 32 - 1))%N with (N.of_nat (n - 1) + 1 * 2 ^ 32)%N by lia.
  rewrite N.mod_add by lia. rewrite N.mod_small by lia. apply Nat2N.id.
Qed.

Lemma get_in {A} r (l : list (N * A)) v : get r l = Some v -> In (r, v) l.
Proof.
  induction l as [|[k u] l IH]; cbn [get]; [discriminate|]. destruct (N.eqb_spec r k) as [->|].
  - intros E. left. congruence.
  - intros E. right. auto.
Qed.

Lemma sum_mod4 a b : a mod 4 = 0 -> b mod 4 = 0 -> (a + b) mod 4 = 0.
Proof. intros A B. rewrite Nat.add_mod, A, B by lia. reflexivity. Qed.

Section Loop.
  Variable R : cring.
  Let ar := arith_of R.
  Variables (o5 : spin_op) (mu : dirn) (plus : bool).
  Notation S5 := (ssize o5).
  Notation D5 := (dsize o5).
  Let k := spin_kernel o5 mu plus.
  Variables x d : nat.
  Hypothesis XD : x <> d.

  Lemma all_in {A} (P : A -> Prop) l : all P l -> forall a, In a l -> P a.
  Proof. induction l as [|b l IH]; cbn; [tauto|]. intros [H1 H2] a [<-|I]; auto. Qed.
  Lemma all_below (P : nat -> Prop) n : all P (seq 0 n) -> forall j, j < n -> P j.
  Proof. intros H j J. apply (all_in P _ H). apply in_seq. lia. Qed.

  Lemma sizes4 : S5 mod 4 = 0 /\ D5 mod 4 = 0 /\ 0 < S5 /\ 0 < D5.
  Proof. destruct o5; cbn; repeat split; lia. Qed.

  Lemma wferm_ext (f f' : nat -> R) : (forall j, f j = f' j) -> forall s c, wferm f s c = wferm f' s c.
  Proof. intros H s c. unfold wferm. now rewrite !H. Qed.
  Lemma fword_ext (A B : fermion R) j : (forall s c, A s c = B s c) -> fword A j = fword B j.
  Proof. intros H. unfold fword. now rewrite H. Qed.
  Lemma fin_ext f f' g g' j : (forall j, f j = f' j) -> g j = g' j -> fin R o5 mu plus f g j = fin R o5 mu plus f' g' j.
  Proof.
    intros F G. pose proof (wferm_ext f f' F) as W. unfold fin. destruct o5.
    - apply fword_ext. intros s c. unfold one_pm, gmul. now rewrite !W.
    - apply fword_ext. intros s c. unfold recon, gmul. now rewrite !W.
    - rewrite G. destruct (j <? 12); [reflexivity|]. f_equal.
      apply fword_ext. intros s c. unfold recon, gmul. now rewrite !W.
  Qed.
  Lemma top_ext f f' g g' j : (forall j, f j = f' j) -> g j = g' j -> top R o5 f g j = top R o5 f' g' j.
  Proof. intros F G. unfold top. destruct o5; rewrite ?F, ?G; reflexivity. Qed.

  (** What the machine holds at the beginning of an iteration. *)
  Definition ready (s : st4 R) (o p n : nat) (f g : nat -> R) : Prop :=
    (forall r v, In (r, v) (midlist R o5 (constants (k_pre k)) f) -> regs4 s r = Some v) /\
    ptrs4 s ps_src = Some (x, o) /\ ptrs4 s ps_dst = Some (d, p) /\
    words_at (mem4 s) x o (S5 * n) f /\
    words_at (mem4 s) d p (D5 * n) (fun j => if j <? D5 then top R o5 f g j else g j).

  Definition site_ok (m : mem R) (p i : nat) (f g : nat -> R) : Prop :=
    forall j, j < D5 -> m d (p + D5 * i + j) =
      Some (fin R o5 mu plus (fun q => f (S5 * i + q))
              (top R o5 (fun q => f (S5 * i + q)) (fun q => g (D5 * i + q))) j).

  Lemma ready_shows s o p n f g c : c <= n -> ready s o p n f g ->
    shows (c * S5) (c * D5) x o d p s
      (Wst (mid R o5 (constants (k_pre k)) f) 0 0 f (fun j => if j <? D5 then top R o5 f g j else g j)).
  Proof.
    intros C (A & B1 & B2 & W1 & W2). split; [|split; [|split; [|split]]]; cbn [wr ws wd wf wg].
    - intros r v E. apply A. now apply get_in.
    - now rewrite Nat.add_0_r.
    - now rewrite Nat.add_0_r.
    - intros j J. apply W1. nia.
    - intros j J. apply W2. nia.
  Qed.

  Lemma last_step s o p f g : o mod 4 = 0 -> p mod 4 = 0 -> ready s o p 1 f g ->
    exists s', run5 ar (k_last k) s = Some s' /\ site_ok (mem4 s') p 0 f g /\ only (mem4 s) (mem4 s') d p (D5 * 1).
  Proof.
    intros O4 P4 H. pose proof (ready_shows s o p 1 f g 1 (le_n _) H) as SH. rewrite !Nat.mul_1_l in SH.
    pose proof (last_all R o5 mu plus f (fun j => if j <? D5 then top R o5 f g j else g j)) as L.
    fold k in L. fold ar in L. unfold part_ok in L.
    destruct (wrun ar S5 D5 (k_last k) (Wst (mid R o5 (constants (k_pre k)) f) 0 0 f (fun j => if j <? D5 then top R o5 f g j else g j)))
      as [w|] eqn:E; [|contradiction]. destruct L as (_ & _ & _ & G).
    destruct (window_run ar S5 D5 x o d p XD O4 P4 _ _ _ _ SH E) as (s' & R1 & (_ & _ & _ & _ & W) & ON).
    exists s'. split; [exact R1|]. rewrite Nat.mul_1_r. split; [|exact ON].
    intros j J. rewrite Nat.mul_0_r, Nat.add_0_r. rewrite (W j J). f_equal.
    rewrite (all_below _ _ G j J). apply fin_ext.
    - intros q. f_equal; lia.
    - replace (j <? D5) with true by (symmetry; apply Nat.ltb_lt; lia). apply top_ext.
      + intros q. f_equal; lia.
      + f_equal; lia.
  Qed.

  Lemma body_step s o p n f g : o mod 4 = 0 -> p mod 4 = 0 -> ready s o p (S (S n)) f g ->
    exists s', run5 ar (k_body k) s = Some s' /\
      ready s' (o + S5) (p + D5) (S n) (fun j => f (S5 + j)) (fun j => g (D5 + j)) /\
      site_ok (mem4 s') p 0 f g /\ only (mem4 s) (mem4 s') d p (2 * D5).
  Proof.
    intros O4 P4 H. pose proof sizes4 as (_ & _ & SP & DP).
    pose proof (ready_shows s o p (S (S n)) f g 2 ltac:(lia) H) as SH.
    pose proof (body_all R o5 mu plus f (fun j => if j <? D5 then top R o5 f g j else g j)) as L.
    fold k in L. fold ar in L. unfold part_ok in L.
    destruct (wrun ar (2 * S5) (2 * D5) (k_body k) (Wst (mid R o5 (constants (k_pre k)) f) 0 0 f (fun j => if j <? D5 then top R o5 f g j else g j)))
      as [w|] eqn:E; [|contradiction]. destruct L as (L1 & L2 & L3 & G).
    destruct (window_run ar _ _ x o d p XD O4 P4 _ _ _ _ SH E) as (s' & R1 & (HR & HS & HD & _ & W) & ON).
    rewrite L1 in HS. rewrite L2 in HD.
    destruct H as (_ & _ & _ & W1 & W2).
    exists s'. split; [exact R1|]. split; [|split; [|exact ON]].
    - split; [|split; [exact HS|split; [exact HD|split]]].
      + intros r v I. apply HR. exact (all_in _ _ L3 (r, v) I).
      + intros j J. rewrite ON by (intros [? _]; congruence). rewrite <- Nat.add_assoc. apply W1. nia.
      + intros j J. rewrite <- Nat.add_assoc. destruct (Nat.ltb_spec j D5) as [B|B].
        * rewrite (W (D5 + j)) by lia. f_equal. rewrite (all_below _ _ G (D5 + j)) by lia.
          replace (D5 + j <? D5) with false by (symmetry; apply Nat.ltb_ge; lia).
          replace (D5 + j - D5) with j by lia. apply top_ext; [reflexivity|].
          replace (D5 + j <? D5) with false by (symmetry; apply Nat.ltb_ge; lia). reflexivity.
        * rewrite ON by lia. rewrite W2 by nia.
          replace (D5 + j <? D5) with false by (symmetry; apply Nat.ltb_ge; lia). reflexivity.
    - intros j J. rewrite Nat.mul_0_r, Nat.add_0_r. rewrite (W j) by lia. f_equal.
      rewrite (all_below _ _ G j) by lia.
      replace (j <? D5) with true by (symmetry; apply Nat.ltb_lt; lia). apply fin_ext.
      + intros q. f_equal; lia.
      + replace (j <? D5) with true by (symmetry; apply Nat.ltb_lt; lia). apply top_ext.
        * intros q. f_equal; lia.
        * f_equal; lia.
  Qed.

  Lemma loop_ok n : forall s o p f g, o mod 4 = 0 -> p mod 4 = 0 -> ready s o p (S n) f g ->
    exists s1 s2, loop5 ar n (k_body k) s = Some s1 /\ run5 ar (k_last k) s1 = Some s2 /\
      (forall i, i < S n -> site_ok (mem4 s2) p i f g) /\ only (mem4 s) (mem4 s2) d p (D5 * S n).
  Proof.
    pose proof sizes4 as (S4 & D4 & SP & DP).
    induction n as [|n IH]; intros s o p f g O4 P4 H.
    - destruct (last_step s o p f g O4 P4 H) as (s' & R1 & OK & ON). exists s, s'. cbn [loop5].
      repeat split; auto. intros i I. replace i with 0 by lia. exact OK.
    - destruct (body_step s o p n f g O4 P4 H) as (s' & R1 & H' & OK & ON).
      destruct (IH s' (o + S5) (p + D5) _ _ (sum_mod4 _ _ O4 S4) (sum_mod4 _ _ P4 D4) H') as (s1 & s2 & L1 & L2 & OKS & ON2).
      exists s1, s2. cbn [loop5]. rewrite R1. split; [exact L1|]. split; [exact L2|]. split.
      + intros [|i] I j J.
        * rewrite ON2 by (intros [_ ?]; lia). exact (OK j J).
        * replace (p + D5 * S i + j) with (p + D5 + D5 * i + j) by lia. rewrite (OKS i ltac:(lia) j J). f_equal.
          apply fin_ext; [intros q; f_equal; lia|]. apply top_ext; [intros q; f_equal; lia|]. f_equal; lia.
      + intros b' o' N. rewrite ON2 by (intros [? ?]; apply N; split; [assumption|lia]).
        apply ON. intros [? ?]; apply N; split; [assumption|nia].
  Qed.

  Theorem call_ok n o p f g (m : mem R) : o mod 4 = 0 -> p mod 4 = 0 -> 1 <= n -> (N.of_nat n <= 2 ^ 32)%N ->
    words_at m x o (S5 * n) f -> words_at m d p (D5 * n) g ->
    exists m', spin_call ar k x o d p (N.of_nat n) m = Some m' /\
      (forall i, i < n -> site_ok m' p i f g) /\ only m m' d p (D5 * n).
  Proof.
    intros O4 P4 N1 N2 W1 W2. pose proof sizes4 as (_ & _ & SP & DP). unfold spin_call.
    pose proof (pre_all R o5 mu plus f g) as L. fold k in L. fold ar in L. unfold part_ok in L.
    destruct (wrun ar S5 D5 (k_pre k) (Wst (fun _ => None) 0 0 f g)) as [w|] eqn:E; [|contradiction].
    destruct L as (L1 & L2 & L3 & G).
    assert (SH : shows S5 D5 x o d p (start4 [(ps_src, (x, o)); (ps_dst, (d, p))] m) (Wst (fun _ => None) 0 0 f g)).
    { split; [|split; [|split; [|split]]]; cbn [wr ws wd wf wg start4 regs4 ptrs4 mem4].
      - discriminate.
      - rewrite Nat.add_0_r. reflexivity.
      - rewrite Nat.add_0_r. reflexivity.
      - intros j J. apply W1. nia.
      - intros j J. apply W2. nia. }
    destruct (window_run ar _ _ x o d p XD O4 P4 _ _ _ _ SH E) as (s1 & R1 & (HR & HS & HD & _ & W) & ON).
    rewrite R1. rewrite L1, Nat.add_0_r in HS. rewrite L2, Nat.add_0_r in HD. cbn [start4 mem4] in ON.
    destruct n as [|n]; [lia|].
    assert (H : ready s1 o p (S n) f g).
    { split; [|split; [exact HS|split; [exact HD|split]]].
      - intros r v I. apply HR. exact (all_in _ _ L3 (r, v) I).
      - intros j J. rewrite ON by (intros [? _]; congruence). apply W1. exact J.
      - intros j J. destruct (Nat.ltb_spec j D5) as [B|B].
        + rewrite (W j B). f_equal. exact (all_below _ _ G j B).
        + rewrite ON by lia. now apply W2. }
    destruct (loop_ok n s1 o p f g O4 P4 H) as (s2 & s3 & Q1 & Q2 & OK & ON2).
    rewrite (iterations_pos (S n) N1 N2). replace (S n - 1) with n by lia. rewrite Q1, Q2.
    exists (mem4 s3). split; [reflexivity|]. split; [exact OK|].
    intros b' o' NN. rewrite ON2 by exact NN. apply ON. intros [? ?]; apply NN; split; [assumption|nia].
  Qed.
End Loop.

(** ** What a call needs: a run that does not fail read the source at its last position *)
Section Needs.
  Context {V : Type}.
  Variable ar : arith V.

  Definition bump_src (i : instrs) : nat :=
    match i with I4 (Bump4 p k) => if N.eqb p ps_src then k else 0 | _ => 0 end.
  Definition plain (i : instrs) : bool :=
    match i with
    | I4 (LoadPs _ _ _) | I4 (StorePs _ _ _) | I4 (MulV _ _ _) | I4 (AddV _ _ _) | I4 (SubV _ _ _)
    | I4 (ShufPs _ _ _ _) | I4 (Bump4 _ _) | MovPs _ _ | SetPs _ _ _ _ _ => true
    | _ => false
    end.
  (** Loads the first number of the source's site. *)
  Definition loads0 (i : instrs) : bool :=
    match i with I4 (LoadPs _ p o) => N.eqb p ps_src && (o =? 0) | _ => false end.

  Definition less (m' m : mem V) : Prop := forall b a, m' b a <> None -> m b a <> None.

  Lemma store4_less (m m' : mem V) b o l : store4 m b o l = Some m' -> less m' m.
  Proof.
    unfold store4, load4. destruct (o mod 4 =? 0); [|discriminate].
    destruct (m b o) eqn:E0; [|discriminate]. destruct (m b (o + 1)) eqn:E1; [|discriminate].
    destruct (m b (o + 2)) eqn:E2; [|discriminate]. destruct (m b (o + 3)) eqn:E3; [|discriminate].
    destruct l as [|x0 [|x1 [|x2 [|x3 [|]]]]]; try discriminate. intros E b' a'.
    assert (Q : m' = setm (setm (setm (setm m b o x0) b (o + 1) x1) b (o + 2) x2) b (o + 3) x3) by congruence. subst m'.
    unfold setm. destruct (Nat.eqb_spec b' b) as [->|]; cbn [andb]; [|auto].
    destruct (Nat.eqb_spec a' (o + 3)) as [->|]; [congruence|]. destruct (Nat.eqb_spec a' (o + 2)) as [->|]; [congruence|].
    destruct (Nat.eqb_spec a' (o + 1)) as [->|]; [congruence|]. destruct (Nat.eqb_spec a' o) as [->|]; [congruence|auto].
  Qed.

  Lemma step_src i s s' x q : plain i = true -> exec5 ar i s = Some s' -> ptrs4 s ps_src = Some (x, q) ->
    ptrs4 s' ps_src = Some (x, q + bump_src i) /\ less (mem4 s') (mem4 s) /\
    (loads0 i = true -> mem4 s' x q <> None).
  Proof.
    intros PL E P.
    assert (KEEP : forall r, s' = St4 r (ptrs4 s) (mem4 s) ->
      ptrs4 s' ps_src = Some (x, q + 0) /\ less (mem4 s') (mem4 s)).
    { intros r ->. cbn. rewrite Nat.add_0_r. split; [exact P|now intros b a]. }
    destruct i as [i|dd a|dd z0 z1 z2 z3].
    - destruct i as [dd pp oo| |pp oo r|dd a b|dd a b|dd a b|dd a b imm| | | | | | | |pp kk]; cbn [plain] in PL; try discriminate;
        cbn [exec5 exec4] in E; cbn [bump_src loads0].
      + destruct (ptrs4 s pp) as [[b0 q0]|] eqn:PP; [|discriminate]. destruct (load4 (mem4 s) b0 (q0 + oo)) as [v|] eqn:LD; [|discriminate].
        assert (Q : s' = St4 (set4 (regs4 s) dd v) (ptrs4 s) (mem4 s)) by congruence.
        destruct (KEEP _ Q) as [K1 K2]. split; [exact K1|]. split; [exact K2|]. intros B. apply andb_true_iff in B.
        destruct B as [B1 B2]. apply N.eqb_eq in B1. apply Nat.eqb_eq in B2. subst pp oo s'. cbn.
        assert (QQ : (b0, q0) = (x, q)) by congruence. assert (b0 = x) by congruence. assert (q0 = q) by congruence. subst b0 q0.
        rewrite Nat.add_0_r in LD. unfold load4 in LD. destruct (q mod 4 =? 0); [|discriminate].
        destruct (mem4 s x q); [discriminate|discriminate].
      + destruct (ptrs4 s pp) as [[b0 q0]|] eqn:PP; [|discriminate]. destruct (regs4 s r) as [v|]; [|discriminate].
        destruct (store4 (mem4 s) b0 (q0 + oo) v) as [m'|] eqn:ST; [|discriminate].
        assert (Q : s' = St4 (regs4 s) (ptrs4 s) m') by congruence. subst s'. cbn. rewrite Nat.add_0_r.
        split; [exact P|]. split; [now apply store4_less in ST|discriminate].
      + destruct (regs4 s a); [|discriminate]. destruct (regs4 s b); [|discriminate]. destruct (lanes _ _ _); [|discriminate].
        destruct (KEEP _ ltac:(symmetry; injection E as E; exact E)) as [K1 K2]. repeat split; auto; discriminate.
      + destruct (regs4 s a); [|discriminate]. destruct (regs4 s b); [|discriminate]. destruct (lanes _ _ _); [|discriminate].
        destruct (KEEP _ ltac:(symmetry; injection E as E; exact E)) as [K1 K2]. repeat split; auto; discriminate.
      + destruct (regs4 s a); [|discriminate]. destruct (regs4 s b); [|discriminate]. destruct (lanes _ _ _); [|discriminate].
        destruct (KEEP _ ltac:(symmetry; injection E as E; exact E)) as [K1 K2]. repeat split; auto; discriminate.
      + destruct (regs4 s a); [|discriminate]. destruct (regs4 s b); [|discriminate]. destruct (shuf_ps _ _ _); [|discriminate].
        destruct (KEEP _ ltac:(symmetry; injection E as E; exact E)) as [K1 K2]. repeat split; auto; discriminate.
      + destruct (ptrs4 s pp) as [[b0 q0]|] eqn:PP; [|discriminate].
        assert (Q : s' = St4 (regs4 s) (set4 (ptrs4 s) pp (b0, q0 + kk)) (mem4 s)) by congruence. subst s'. cbn [ptrs4 mem4].
        split; [|split; [now intros b a|discriminate]]. unfold set4. rewrite (N.eqb_sym ps_src pp).
        destruct (N.eqb_spec pp ps_src) as [->|]; [congruence|]. now rewrite Nat.add_0_r.
    - cbn [exec5] in E. destruct (regs4 s a); [|discriminate].
      destruct (KEEP _ ltac:(symmetry; injection E as E; exact E)) as [K1 K2]. repeat split; auto; discriminate.
    - cbn [exec5] in E. destruct (KEEP _ ltac:(symmetry; injection E as E; exact E)) as [K1 K2]. repeat split; auto; discriminate.
  Qed.

  (** After [l]: how far the source's pointer moved, and whether a load of the first number
      followed the last move. *)
  Fixpoint moves (l : list instrs) : nat := match l with [] => 0 | i :: l' => bump_src i + moves l' end.
  Fixpoint reads (l : list instrs) : bool :=
    match l with [] => false | i :: l' => reads l' || (loads0 i && (moves l' =? 0)) end.

  Lemma run_src l : forall s s' x q, forallb plain l = true -> run5 ar l s = Some s' -> ptrs4 s ps_src = Some (x, q) ->
    ptrs4 s' ps_src = Some (x, q + moves l) /\ less (mem4 s') (mem4 s) /\
    (reads l = true -> mem4 s x (q + moves l) <> None).
  Proof.
    induction l as [|i l IH]; intros s s' x q PL E P; cbn [run5 moves reads forallb] in *.
    - assert (s' = s) by congruence. subst s'. rewrite Nat.add_0_r. repeat split; auto; try discriminate. now intros b a.
    - apply andb_true_iff in PL. destruct PL as [PL1 PL2]. destruct (exec5 ar i s) as [s1|] eqn:E1; [|discriminate].
      destruct (step_src i s s1 x q PL1 E1 P) as (P1 & L1 & R1).
      destruct (IH s1 s' x _ PL2 E P1) as (P2 & L2 & R2). rewrite Nat.add_assoc. split; [exact P2|]. split.
      + intros b a H. auto.
      + intros B. apply orb_true_iff in B. destruct B as [B|B]; [apply L1; auto|].
        apply andb_true_iff in B. destruct B as [B1 B2]. apply Nat.eqb_eq in B2. rewrite B2.
        apply L1. assert (Z : bump_src i = 0).
        { destruct i as [[]| |]; cbn in B1 |- *; try discriminate; reflexivity. }
        rewrite Z, !Nat.add_0_r. auto.
  Qed.

  Lemma loop_src l n : forall s s' x q, forallb plain l = true -> reads l = true -> 0 < n ->
    loop5 ar n l s = Some s' -> ptrs4 s ps_src = Some (x, q) -> mem4 s x (q + n * moves l) <> None.
  Proof.
    induction n as [|n IH]; intros s s' x q PL RD N E P; [lia|]. cbn [loop5] in E.
    destruct (run5 ar l s) as [s1|] eqn:E1; [|discriminate].
    destruct (run_src l s s1 x q PL E1 P) as (P1 & L1 & R1). destruct n as [|n].
    - rewrite Nat.mul_1_l. auto.
    - pose proof (IH s1 s' x _ PL RD ltac:(lia) E P1) as H. apply L1.
      replace (q + S (S n) * moves l) with (q + moves l + S n * moves l) by lia. exact H.
  Qed.
End Needs.

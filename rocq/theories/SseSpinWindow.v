From Coq Require Import List Bool Arith NArith ZArith Lia.
From Verif Require Import SseMachine SseSpec Sse4Machine SseSpinMachine.
Import ListNotations.
Open Scope nat_scope.

(** The machine of [SseSpinMachine] restricted to two arrays, one read and one written: the
    numbers of [wf] and [wg], at positions below [ls] and [ld].  Runs of it can be computed
    without knowing the numbers; [window_run] shows that the machine does the same. *)
Record wst (V : Type) := Wst {
  wr : N -> option (list V); ws : nat; wd : nat; wf : nat -> V; wg : nat -> V }.
Arguments Wst {V}. Arguments wr {V}. Arguments ws {V}. Arguments wd {V}. Arguments wf {V}. Arguments wg {V}.

Definition upd4 {V} (g : nat -> V) (c : nat) (x0 x1 x2 x3 : V) : nat -> V :=
  fun j => if j =? c + 3 then x3 else if j =? c + 2 then x2 else if j =? c + 1 then x1 else if j =? c then x0 else g j.

Section Window.
  Context {V : Type}.
  Variable ar : arith V.
  Variables ls ld : nat.

  (** Four numbers at [c]. *)
  Definition chunk (f : nat -> V) (c : nat) : list V := [f c; f (c + 1); f (c + 2); f (c + 3)].

  Definition wexec (i : instrs) (w : wst V) : option (wst V) :=
    let reg d v := Some (Wst (set4 (wr w) d v) (ws w) (wd w) (wf w) (wg w)) in
    let bin d a b (f : list V -> list V -> option (list V)) :=
      match wr w a, wr w b with
      | Some x, Some y => match f x y with Some v => reg d v | None => None end
      | _, _ => None
      end in
    match i with
    | MovPs d a => match wr w a with Some v => reg d v | None => None end
    | SetPs d z0 z1 z2 z3 => reg d (map (a_ofZ ar) [z0; z1; z2; z3])
    | I4 (LoadPs d p o) =>
        if N.eqb p ps_src then
          if ((ws w + o) mod 4 =? 0) && (ws w + o + 4 <=? ls) then reg d (chunk (wf w) (ws w + o)) else None
        else if N.eqb p ps_dst then
          if ((wd w + o) mod 4 =? 0) && (wd w + o + 4 <=? ld) then reg d (chunk (wg w) (wd w + o)) else None
        else None
    | I4 (StorePs p o r) =>
        if N.eqb p ps_dst then
          if ((wd w + o) mod 4 =? 0) && (wd w + o + 4 <=? ld) then
            match wr w r with
            | Some [x0; x1; x2; x3] => Some (Wst (wr w) (ws w) (wd w) (wf w) (upd4 (wg w) (wd w + o) x0 x1 x2 x3))
            | _ => None
            end
          else None
        else None
    | I4 (MulV d a b) => bin d a b (lanes (a_mul ar))
    | I4 (AddV d a b) => bin d a b (lanes (a_add ar))
    | I4 (SubV d a b) => bin d a b (lanes (a_sub ar))
    | I4 (ShufPs d a b imm) => bin d a b (fun x y => shuf_ps x y imm)
    | I4 (Bump4 p k) =>
        if N.eqb p ps_src then Some (Wst (wr w) (ws w + k) (wd w) (wf w) (wg w))
        else if N.eqb p ps_dst then Some (Wst (wr w) (ws w) (wd w + k) (wf w) (wg w))
        else None
    | _ => None
    end.

  Fixpoint wrun (l : list instrs) (w : wst V) : option (wst V) :=
    match l with
    | [] => Some w
    | i :: l' => match wexec i w with Some w' => wrun l' w' | None => None end
    end.

  Variables x o d p : nat.
  Hypothesis XD : x <> d.
  Hypothesis O4 : o mod 4 = 0.
  Hypothesis P4 : p mod 4 = 0.

  (** The machine's state contains the window's. *)
  Definition shows (s : st4 V) (w : wst V) : Prop :=
    (forall r v, wr w r = Some v -> regs4 s r = Some v) /\
    ptrs4 s ps_src = Some (x, o + ws w) /\ ptrs4 s ps_dst = Some (d, p + wd w) /\
    words_at (mem4 s) x o ls (wf w) /\ words_at (mem4 s) d p ld (wg w).

  Lemma add_mod4 a b : a mod 4 = 0 -> b mod 4 = 0 -> (a + b) mod 4 = 0.
  Proof. intros A B. rewrite Nat.add_mod, A, B by lia. reflexivity. Qed.

  Lemma load_chunk (m : mem V) b q n f c : q mod 4 = 0 -> words_at m b q n f -> c mod 4 = 0 -> c + 4 <= n ->
    load4 m b (q + c) = Some (chunk f c).
  Proof.
    intros A W C L. unfold load4. rewrite (add_mod4 _ _ A C). cbn [Nat.eqb].
    rewrite (W c) by lia. rewrite <- !Nat.add_assoc.
    rewrite (W (c + 1)), (W (c + 2)), (W (c + 3)) by lia. reflexivity.
  Qed.

  Lemma store_chunk (m : mem V) n g c x0 x1 x2 x3 : words_at m d p n g -> c mod 4 = 0 -> c + 4 <= n ->
    exists m', store4 m d (p + c) [x0; x1; x2; x3] = Some m' /\ words_at m' d p n (upd4 g c x0 x1 x2 x3) /\
      only m m' d p n.
  Proof.
    intros W C L. unfold store4. rewrite (load_chunk m d p n g c P4 W C L). eexists. split; [reflexivity|]. split.
    - intros j J. unfold setm, upd4. rewrite Nat.eqb_refl. cbn [andb].
      destruct (Nat.eqb_spec j (c + 3)) as [E|E];
        [replace (p + j =? p + c + 3) with true by (symmetry; apply Nat.eqb_eq; lia); reflexivity|
         replace (p + j =? p + c + 3) with false by (symmetry; apply Nat.eqb_neq; lia)].
      destruct (Nat.eqb_spec j (c + 2)) as [E2|E2];
        [replace (p + j =? p + c + 2) with true by (symmetry; apply Nat.eqb_eq; lia); reflexivity|
         replace (p + j =? p + c + 2) with false by (symmetry; apply Nat.eqb_neq; lia)].
      destruct (Nat.eqb_spec j (c + 1)) as [E1|E1];
        [replace (p + j =? p + c + 1) with true by (symmetry; apply Nat.eqb_eq; lia); reflexivity|
         replace (p + j =? p + c + 1) with false by (symmetry; apply Nat.eqb_neq; lia)].
      destruct (Nat.eqb_spec j c) as [E0|E0];
        [replace (p + j =? p + c) with true by (symmetry; apply Nat.eqb_eq; lia); reflexivity|
         replace (p + j =? p + c) with false by (symmetry; apply Nat.eqb_neq; lia)].
      now apply W.
    - intros b' o' N. unfold setm. destruct (Nat.eqb_spec b' d) as [->|B]; cbn [andb]; [|reflexivity].
      assert (H : ~ (p <= o' < p + n)) by tauto.
      replace (o' =? p + c + 3) with false by (symmetry; apply Nat.eqb_neq; lia).
      replace (o' =? p + c + 2) with false by (symmetry; apply Nat.eqb_neq; lia).
      replace (o' =? p + c + 1) with false by (symmetry; apply Nat.eqb_neq; lia).
      replace (o' =? p + c) with false by (symmetry; apply Nat.eqb_neq; lia). reflexivity.
  Qed.

  Lemma only_refl (m : mem V) b q n : only m m b q n.
  Proof. intros b' o' _. reflexivity. Qed.
  Lemma only_trans (m1 m2 m3 : mem V) b q n : only m1 m2 b q n -> only m2 m3 b q n -> only m1 m3 b q n.
  Proof. intros A B b' o' N. now rewrite (B b' o' N), (A b' o' N). Qed.

  Lemma set_more (r : N -> option (list V)) (r' : N -> option (list V)) k v :
    (forall q u, r q = Some u -> r' q = Some u) -> forall q u, set4 r k v q = Some u -> set4 r' k v q = Some u.
  Proof. intros H q u. unfold set4. destruct (N.eqb q k); [easy|apply H]. Qed.

  Ltac done_reg := eexists; split; [reflexivity|]; split; [|apply only_refl];
    split; [apply set_more; assumption|]; cbn; auto.

  Lemma window_step i s w w' : shows s w -> wexec i w = Some w' ->
    exists s', exec5 ar i s = Some s' /\ shows s' w' /\ only (mem4 s) (mem4 s') d p ld.
  Proof.
    intros (HR & HS & HD & HF & HG) E.
    assert (BIN : forall dd a b (f : list V -> list V -> option (list V)),
      match wr w a, wr w b with
      | Some x, Some y => match f x y with Some v => Some (Wst (set4 (wr w) dd v) (ws w) (wd w) (wf w) (wg w)) | None => None end
      | _, _ => None
      end = Some w' ->
      exists s', match regs4 s a, regs4 s b with
      | Some x, Some y => match f x y with Some v => Some (St4 (set4 (regs4 s) dd v) (ptrs4 s) (mem4 s)) | None => None end
      | _, _ => None
      end = Some s' /\ shows s' w' /\ only (mem4 s) (mem4 s') d p ld).
    { intros dd a b f E'. destruct (wr w a) as [xa|] eqn:A; [|discriminate]. destruct (wr w b) as [xb|] eqn:B; [|discriminate].
      rewrite (HR _ _ A), (HR _ _ B). destruct (f xa xb) as [v|]; [|discriminate].
      assert (Q : w' = Wst (set4 (wr w) dd v) (ws w) (wd w) (wf w) (wg w)) by congruence. subst w'. done_reg. }
    destruct i as [i|dd a|dd z0 z1 z2 z3].
    - destruct i as [dd pp oo| |pp oo r|dd a b|dd a b|dd a b|dd a b imm| | | | | | | |pp k]; cbn [wexec] in E; try discriminate;
        cbn [exec5 exec4].
      + destruct (N.eqb_spec pp ps_src) as [->|_].
        * destruct (((ws w + oo) mod 4 =? 0) && (ws w + oo + 4 <=? ls)) eqn:C; [|discriminate].
          apply andb_true_iff in C. destruct C as [C1 C2]. apply Nat.eqb_eq in C1. apply Nat.leb_le in C2.
          rewrite HS, <- Nat.add_assoc, (load_chunk (mem4 s) x o ls (wf w) (ws w + oo) O4 HF C1 C2).
          assert (Q : w' = Wst (set4 (wr w) dd (chunk (wf w) (ws w + oo))) (ws w) (wd w) (wf w) (wg w)) by congruence.
          subst w'. done_reg.
        * destruct (N.eqb_spec pp ps_dst) as [->|_]; [|discriminate].
          destruct (((wd w + oo) mod 4 =? 0) && (wd w + oo + 4 <=? ld)) eqn:C; [|discriminate].
          apply andb_true_iff in C. destruct C as [C1 C2]. apply Nat.eqb_eq in C1. apply Nat.leb_le in C2.
          rewrite HD, <- Nat.add_assoc, (load_chunk (mem4 s) d p ld (wg w) (wd w + oo) P4 HG C1 C2).
          assert (Q : w' = Wst (set4 (wr w) dd (chunk (wg w) (wd w + oo))) (ws w) (wd w) (wf w) (wg w)) by congruence.
          subst w'. done_reg.
      + destruct (N.eqb_spec pp ps_dst) as [->|_]; [|discriminate].
        destruct (((wd w + oo) mod 4 =? 0) && (wd w + oo + 4 <=? ld)) eqn:C; [|discriminate].
        apply andb_true_iff in C. destruct C as [C1 C2]. apply Nat.eqb_eq in C1. apply Nat.leb_le in C2.
        destruct (wr w r) as [[|x0 [|x1 [|x2 [|x3 [|]]]]]|] eqn:A; try discriminate.
        rewrite HD, (HR _ _ A), <- Nat.add_assoc.
        destruct (store_chunk (mem4 s) ld (wg w) (wd w + oo) x0 x1 x2 x3 HG C1 C2) as (m' & M1 & M2 & M3).
        rewrite M1. eexists. split; [reflexivity|]. split; [|exact M3].
        assert (Q : w' = Wst (wr w) (ws w) (wd w) (wf w) (upd4 (wg w) (wd w + oo) x0 x1 x2 x3)) by congruence. subst w'.
        split; [exact HR|]. cbn. split; [exact HS|]. split; [exact HD|]. split; [|exact M2].
        intros j J. rewrite M3 by (intros [? _]; congruence). now apply HF.
      + now apply BIN.
      + now apply BIN.
      + now apply BIN.
      + now apply BIN.
      + destruct (N.eqb_spec pp ps_src) as [->|_].
        * rewrite HS. eexists. split; [reflexivity|]. split; [|apply only_refl].
          assert (Q : w' = Wst (wr w) (ws w + k) (wd w) (wf w) (wg w)) by congruence. subst w'.
          split; [exact HR|]. cbn. rewrite Nat.add_assoc. auto.
        * destruct (N.eqb_spec pp ps_dst) as [->|_]; [|discriminate].
          rewrite HD. eexists. split; [reflexivity|]. split; [|apply only_refl].
          assert (Q : w' = Wst (wr w) (ws w) (wd w + k) (wf w) (wg w)) by congruence. subst w'.
          split; [exact HR|]. cbn. rewrite Nat.add_assoc. auto.
    - cbn [wexec] in E. cbn [exec5]. destruct (wr w a) as [v|] eqn:A; [|discriminate]. rewrite (HR _ _ A).
      assert (Q : w' = Wst (set4 (wr w) dd v) (ws w) (wd w) (wf w) (wg w)) by congruence. subst w'. done_reg.
    - cbn [wexec] in E. cbn [exec5].
      assert (Q : w' = Wst (set4 (wr w) dd (map (a_ofZ ar) [z0; z1; z2; z3])) (ws w) (wd w) (wf w) (wg w)) by congruence.
      subst w'. done_reg.
  Qed.

  Lemma window_run l : forall s w w', shows s w -> wrun l w = Some w' ->
    exists s', run5 ar l s = Some s' /\ shows s' w' /\ only (mem4 s) (mem4 s') d p ld.
  Proof.
    induction l as [|i l IH]; intros s w w' H E; cbn [wrun run5] in *.
    - assert (w' = w) by congruence. subst w'. exists s. repeat split; try apply H.
    - destruct (wexec i w) as [w1|] eqn:E1; [|discriminate].
      destruct (window_step i s w w1 H E1) as (s1 & R1 & H1 & O1). rewrite R1.
      destruct (IH s1 w1 w' H1 E) as (s2 & R2 & H2 & O2). exists s2. repeat split; try apply H2; auto.
      eapply only_trans; eauto.
  Qed.
End Window.

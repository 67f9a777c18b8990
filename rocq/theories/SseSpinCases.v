From Coq Require Import List Bool Arith NArith ZArith Lia Ring.
From Verif Require Import SseMachine SseSpec SseBlasSpec SseBlasProofs Sse4Machine SseSpinMachine SseSpinKernels SseSpinSpec SseSpinWindow.
Import ListNotations.
Open Scope nat_scope.

(** Sizes of a site: source and destination. *)
Definition ssize (o : spin_op) : nat := match o with Project => 24 | _ => 12 end.
Definition dsize (o : spin_op) : nat := match o with Project => 12 | _ => 24 end.

(** The constants that a kernel keeps in variables during the loop. *)
Fixpoint constants (l : list instrs) : list (N * list Z) :=
  match l with
  | [] => []
  | SetPs d z0 z1 z2 z3 :: l' => (d, [z0; z1; z2; z3]) :: constants l'
  | _ :: l' => constants l'
  end.

(** The spinor in 24 words. *)
Definition wferm {V} (f : nat -> V) : fermion V := fun s c => (f (6 * s + 2 * c), f (6 * s + 2 * c + 1)).

Section Cases.
  Variable R : cring.
  Let ar := arith_of R.
  Add Ring cring_ring_spin : (claw R).

  (** The spinor reconstructed from a half spinor. *)
  Definition recon (mu : dirn) (plus : bool) (H : fermion R) : fermion R :=
    fun s c => if s <? 2 then H s c else zsign ar plus (gmul ar mu H s c).

  (** The destination after the loads for a site. *)
  Definition top (o : spin_op) (f g : nat -> R) (j : nat) : R :=
    match o with
    | AddReconstruct => if j <? 12 then a_add ar (g j) (f j) else g j
    | _ => g j
    end.
  (** The destination after the site, from what it was after the loads. *)
  Definition fin (o : spin_op) (mu : dirn) (plus : bool) (f g : nat -> R) (j : nat) : R :=
    match o with
    | Project => fword (one_pm ar mu plus (wferm f)) j
    | Reconstruct => fword (recon mu plus (wferm f)) j
    | AddReconstruct => if j <? 12 then g j else a_add ar (g j) (fword (recon mu plus (wferm f)) j)
    end.

  (** Variables after the loads for a site. *)
  Definition midlist (o : spin_op) (cs : list (N * list Z)) (f : nat -> R) : list (N * list R) :=
    match o with
    | Project => [(0%N, chunk f 0); (1%N, chunk f 4); (2%N, chunk f 8); (3%N, chunk f 12); (4%N, chunk f 16); (5%N, chunk f 20)]
    | _ => [(0%N, chunk f 0); (1%N, chunk f 4); (2%N, chunk f 8)]
    end ++ map (fun kz => (fst kz, map (a_ofZ ar) (snd kz))) cs.
  Definition mid (o : spin_op) (cs : list (N * list Z)) (f : nat -> R) : N -> option (list R) :=
    fun r => get r (midlist o cs f).

  Fixpoint all {A} (P : A -> Prop) (l : list A) : Prop := match l with [] => True | a :: l' => P a /\ all P l' end.
  Definition holds_all (l : list (N * list R)) (r : N -> option (list R)) : Prop :=
    all (fun kv => r (fst kv) = Some (snd kv)) l.

  (** The three parts of a kernel do what they should on a window. *)
  Definition part_ok (o : spin_op) (r : option (wst R)) (s d : nat) (regs : list (N * list R)) (len : nat)
    (G : nat -> R) : Prop :=
    match r with
    | Some w => ws w = s /\ wd w = d /\ holds_all regs (wr w) /\ all (fun j => wg w j = G j) (seq 0 len)
    | None => False
    end.

  Definition pre_ok (o : spin_op) (k : kernel5) : Prop := forall f g,
    part_ok o (wrun ar (ssize o) (dsize o) (k_pre k) (Wst (fun _ => None) 0 0 f g)) 0 0
      (midlist o (constants (k_pre k)) f) (dsize o) (top o f g).
  Definition body_ok (o : spin_op) (mu : dirn) (plus : bool) (k : kernel5) : Prop := forall f g,
    part_ok o (wrun ar (2 * ssize o) (2 * dsize o) (k_body k) (Wst (mid o (constants (k_pre k)) f) 0 0 f g))
      (ssize o) (dsize o) (midlist o (constants (k_pre k)) (fun j => f (ssize o + j))) (2 * dsize o)
      (fun j => if j <? dsize o then fin o mu plus f g j
                else top o (fun j => f (ssize o + j)) (fun j => g (dsize o + j)) (j - dsize o)).
  Definition last_ok (o : spin_op) (mu : dirn) (plus : bool) (k : kernel5) : Prop := forall f g,
    part_ok o (wrun ar (ssize o) (dsize o) (k_last k) (Wst (mid o (constants (k_pre k)) f) 0 0 f g)) 0 0
      [] (dsize o) (fin o mu plus f g).

  Ltac part := intros f g; cbv -[num cadd csub cmul copp c0 c1];
    repeat match goal with |- _ /\ _ => split end; reflexivity || exact I || ring.

  Lemma pre_all o mu plus : pre_ok o (spin_kernel o mu plus).
  Proof. destruct o, mu, plus; part. Qed.
  Lemma last_all o mu plus : last_ok o mu plus (spin_kernel o mu plus).
  Proof. destruct o, mu, plus; part. Qed.
  Lemma body_all o mu plus : body_ok o mu plus (spin_kernel o mu plus).
  Proof. destruct o, mu, plus; part. Qed.
End Cases.

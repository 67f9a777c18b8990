From Coq Require Import ZArith List Lia Ring Ring_theory Bool.
From Verif Require Import Base GammaModel GammaSpec GammaProofs.
Import ListNotations.

(** * Every product is a permutation with phases *)

Section Phases.
Context {T : Type} (O : elem_ops T).

(** i^p x *)
Definition ph (p : nat) (x : T) : T :=
  match p with 0 => x | 1 => e_timesI O x | 2 => e_neg O x | _ => e_timesMinusI O x end.

Lemma ph_ph : unary_laws O -> forall p q x, p < 4 -> q < 4 -> ph p (ph q x) = ph ((p + q) mod 4) x.
Proof.
  intros U p q x Hp Hq. revert p Hp. apply below4; revert q Hq; apply below4; cbn [ph];
  match goal with |- context [ph (?a mod ?b) x] =>
    let e := eval vm_compute in (a mod b) in change (ph (a mod b) x) with (ph e x) end; cbn [ph];
  repeat first [ rewrite (timesMinusI_is O U) | rewrite (timesI_neg O U)
               | rewrite (timesI_twice O U) | rewrite (neg_neg O U) ]; reflexivity.
Qed.
End Phases.

(** The column of the non-zero entry of row i, and the power of i found there. *)
Definition phase_of (c : gint) : nat :=
  match c with
  | (0, 1)%Z => 1 | (-1, 0)%Z => 2 | (0, -1)%Z => 3 | _ => 0
  end.
Definition is0 (c : gint) : bool := (fst c =? 0)%Z && (snd c =? 0)%Z.
Definition row_col (M : gmat) (i : nat) : nat :=
  if negb (is0 (entry M i 0)) then 0 else
  if negb (is0 (entry M i 1)) then 1 else
  if negb (is0 (entry M i 2)) then 2 else 3.
Definition col_row (M : gmat) (j : nat) : nat :=
  if negb (is0 (entry M 0 j)) then 0 else
  if negb (is0 (entry M 1 j)) then 1 else
  if negb (is0 (entry M 2 j)) then 2 else 3.
Definition row_ph (M : gmat) (i : nat) : nat := phase_of (entry M i (row_col M i)).
Definition col_ph (M : gmat) (j : nat) : nat := phase_of (entry M (col_row M j) j).

Definition table : Type := list (nat * nat).
Definition row_table (M : gmat) : table := map (fun i => (row_ph M i, row_col M i)) (seq 0 4).
Definition col_table (M : gmat) : table := map (fun i => (col_ph M i, col_row M i)) (seq 0 4).
Definition tph (t : table) (i : nat) : nat := fst (nth i t (0, 0)).
Definition tix (t : table) (i : nat) : nat := snd (nth i t (0, 0)).

Section Rep.
Context {T : Type} (O : elem_ops T).

Ltac fin := vm_compute; reflexivity.
Ltac by_index :=
  let i := fresh in let j := fresh in let Hi := fresh in let Hj := fresh in
  intros i j Hi Hj; revert i Hi; apply below4; revert j Hj; apply below4.

Lemma vec_rep : forall b n v, n < 16 -> exists w, gamma_vec O b n v = Some w /\
  forall i, i < 4 ->
    el w i = ph O (tph (row_table (Gamma b n)) i) (el v (tix (row_table (Gamma b n)) i)).
Proof.
  intros b n v H. revert n H. destruct b; apply below16;
    (eexists; split; [reflexivity|]; apply below4; fin).
Qed.

Lemma mat_rep : forall b n m, n < 16 -> exists w, gamma_mat O b n m = Some w /\
  forall i j, i < 4 -> j < 4 ->
    el2 w i j = ph O (tph (row_table (Gamma b n)) i) (el2 m (tix (row_table (Gamma b n)) i) j).
Proof.
  intros b n m H. revert n H. destruct b; apply below16;
    (eexists; split; [reflexivity|]; by_index; fin).
Qed.

Lemma right_rep : forall b n m, n < 16 -> exists w, mat_gamma O b n m = Some w /\
  forall i j, i < 4 -> j < 4 ->
    el2 w i j = ph O (tph (col_table (Gamma b n)) j) (el2 m i (tix (col_table (Gamma b n)) j)).
Proof.
  intros b n m H. revert n H. destruct b; apply below16;
    (eexists; split; [reflexivity|]; by_index; fin).
Qed.
End Rep.

Lemma quad_ext : forall T (v w : quad T), (forall i, i < 4 -> el v i = el w i) -> v = w.
Proof.
  intros T [] [] H.
  f_equal; [apply (H 0) | apply (H 1) | apply (H 2) | apply (H 3)]; lia.
Qed.

Lemma smat_ext : forall T (v w : smat T),
  (forall i j, i < 4 -> j < 4 -> el2 v i j = el2 w i j) -> v = w.
Proof.
  intros T v w H. apply quad_ext. intros i Hi. apply quad_ext. intros j Hj. now apply H.
Qed.

Lemma el_vmap : forall T (f : T -> T) v i, i < 4 -> el (vmap f v) i = f (el v i).
Proof. intros T f v. apply below4; reflexivity. Qed.

(** Facts about the tables, by evaluation. *)
Definition tables_good (b : basis) (n : nat) : bool :=
  forallb (fun i => (tph (row_table (Gamma b n)) i <? 4) && (tix (row_table (Gamma b n)) i <? 4)
                 && (tph (col_table (Gamma b n)) i <? 4) && (tix (col_table (Gamma b n)) i <? 4))
          (seq 0 4).

Lemma tables_good_ok : forall b n i, n < 16 -> i < 4 ->
  tph (row_table (Gamma b n)) i < 4 /\ tix (row_table (Gamma b n)) i < 4 /\
  tph (col_table (Gamma b n)) i < 4 /\ tix (col_table (Gamma b n)) i < 4.
Proof.
  intros b n i Hn Hi.
  assert (G : tables_good b n = true).
  { revert n Hn. destruct b; apply below16; vm_compute; reflexivity. }
  unfold tables_good in G. rewrite forallb_forall in G.
  specialize (G i). rewrite !andb_true_iff, !Nat.ltb_lt in G.
  assert (In i (seq 0 4)) as HI by (apply in_seq; lia). specialize (G HI). tauto.
Qed.

Definition group_good (b : basis) (m n : nat) : bool :=
  let tm := row_table (Gamma b m) in
  let tn := row_table (Gamma b n) in
  let tx := row_table (Gamma b (Nat.lxor m n)) in
  let s := if odd_swaps m n then 2 else 0 in
  (Nat.lxor m n <? 16) &&
  forallb (fun i =>
    ((tph tm i + tph tn (tix tm i)) mod 4 =? (s + tph tx i) mod 4) &&
    (tix tn (tix tm i) =? tix tx i)) (seq 0 4).

Lemma group_good_all :
  forallb (fun b => forallb (fun m => forallb (group_good b m) (seq 0 16)) (seq 0 16))
          [DeGrandRossi; DiracPauli] = true.
Proof. vm_compute. reflexivity. Qed.

Lemma group_good_ok : forall b m n, m < 16 -> n < 16 -> group_good b m n = true.
Proof.
  intros b m n Hm Hn. pose proof group_good_all as G. rewrite forallb_forall in G.
  assert (Hb : In b [DeGrandRossi; DiracPauli]) by (destruct b; cbn; auto).
  specialize (G b Hb). rewrite forallb_forall in G.
  specialize (G m ltac:(apply in_seq; lia)). rewrite forallb_forall in G.
  apply G. apply in_seq. lia.
Qed.

Section Algebra.
Context {T : Type} (O : elem_ops T) (U : unary_laws O).

Lemma neg_is_ph : forall x, e_neg O x = ph O 2 x.
Proof. reflexivity. Qed.

Lemma group_law : forall b m n v, m < 16 -> n < 16 ->
  exists w u x,
    gamma_vec O b n v = Some w /\ gamma_vec O b m w = Some u /\
    gamma_vec O b (Nat.lxor m n) v = Some x /\
    u = if odd_swaps m n then vmap (e_neg O) x else x.
Proof.
  intros b m n v Hm Hn.
  pose proof (group_good_ok b m n Hm Hn) as G. unfold group_good in G.
  rewrite andb_true_iff, Nat.ltb_lt in G. destruct G as [Hx G].
  destruct (vec_rep O b n v Hn) as [w [Ew Hw]].
  destruct (vec_rep O b m w Hm) as [u [Eu Hu]].
  destruct (vec_rep O b (Nat.lxor m n) v Hx) as [x [Ex Hxx]].
  exists w, u, x. repeat (split; [assumption|]).
  apply quad_ext. intros i Hi.
  rewrite forallb_forall in G. specialize (G i ltac:(apply in_seq; lia)).
  rewrite andb_true_iff, !Nat.eqb_eq in G. destruct G as [G1 G2].
  destruct (tables_good_ok b m i Hm Hi) as [A1 [A2 _]].
  rewrite Hu, Hw by assumption.
  destruct (tables_good_ok b n _ Hn A2) as [B1 [B2 _]].
  destruct (tables_good_ok b _ i Hx Hi) as [C1 [C2 _]].
  rewrite ph_ph by assumption. rewrite G1, G2.
  destruct (odd_swaps m n).
  - rewrite el_vmap, Hxx by assumption. rewrite neg_is_ph, ph_ph by (assumption || lia). reflexivity.
  - rewrite Hxx by assumption. rewrite Nat.add_0_l, (Nat.mod_small _ 4 C1). reflexivity.
Qed.

Lemma left_right_commute : forall b m n x, m < 16 -> n < 16 ->
  exists y z w, mat_gamma O b n x = Some y /\ gamma_mat O b m y = Some w /\
                gamma_mat O b m x = Some z /\ mat_gamma O b n z = Some w.
Proof.
  intros b m n x Hm Hn.
  destruct (right_rep O b n x Hn) as [y [Ey Hy]].
  destruct (mat_rep O b m y Hm) as [w [Ew Hw]].
  destruct (mat_rep O b m x Hm) as [z [Ez Hz]].
  destruct (right_rep O b n z Hn) as [w' [Ew' Hw']].
  exists y, z, w. repeat (split; [assumption|]).
  rewrite Ew'. f_equal. apply smat_ext. intros i j Hi Hj.
  destruct (tables_good_ok b m i Hm Hi) as [A1 [A2 _]].
  destruct (tables_good_ok b n j Hn Hj) as [_ [_ [B1 B2]]].
  rewrite Hw', Hz, Hw, Hy by assumption.
  rewrite !ph_ph by assumption. now rewrite Nat.add_comm.
Qed.

(** Left multiplication of a matrix is the product with each column. *)

Lemma el_column : forall (m : smat T) i j, i < 4 -> el (column m j) i = el2 m i j.
Proof. intros m i j Hi. revert i Hi. apply below4; reflexivity. Qed.

Lemma mat_columns : forall b n m, n < 16 ->
  exists y, gamma_mat O b n m = Some y /\
    forall j, j < 4 -> gamma_vec O b n (column m j) = Some (column y j).
Proof.
  intros b n m Hn. destruct (mat_rep O b n m Hn) as [y [Ey Hy]].
  exists y. split; [assumption|]. intros j Hj.
  destruct (vec_rep O b n (column m j) Hn) as [w [Ew Hw]]. rewrite Ew. f_equal.
  apply quad_ext. intros i Hi.
  destruct (tables_good_ok b n i Hn Hi) as [A1 [A2 _]].
  rewrite Hw by assumption. rewrite !el_column by assumption. now rewrite Hy.
Qed.

(** Multiplying from the right by Gamma(n) and then by Gamma(m) is multiplying
    from the right by Gamma(n) Gamma(m). *)
Definition right_good (b : basis) (m n : nat) : bool :=
  let tm := col_table (Gamma b m) in
  let tn := col_table (Gamma b n) in
  let tx := col_table (Gamma b (Nat.lxor n m)) in
  let s := if odd_swaps n m then 2 else 0 in
  (Nat.lxor n m <? 16) &&
  forallb (fun i =>
    ((tph tm i + tph tn (tix tm i)) mod 4 =? (s + tph tx i) mod 4) &&
    (tix tn (tix tm i) =? tix tx i)) (seq 0 4).

Lemma right_good_all :
  forallb (fun b => forallb (fun m => forallb (right_good b m) (seq 0 16)) (seq 0 16))
          [DeGrandRossi; DiracPauli] = true.
Proof. vm_compute. reflexivity. Qed.

Lemma right_group : forall b m n x, m < 16 -> n < 16 ->
  exists y z w, mat_gamma O b n x = Some y /\ mat_gamma O b m y = Some z /\
    mat_gamma O b (Nat.lxor n m) x = Some w /\
    z = if odd_swaps n m then vmap (vmap (e_neg O)) w else w.
Proof.
  intros b m n v Hm Hn.
  pose proof right_good_all as G. rewrite forallb_forall in G.
  specialize (G b ltac:(destruct b; cbn; auto)). rewrite forallb_forall in G.
  specialize (G m ltac:(apply in_seq; lia)). rewrite forallb_forall in G.
  specialize (G n ltac:(apply in_seq; lia)). unfold right_good in G.
  rewrite andb_true_iff, Nat.ltb_lt in G. destruct G as [Hx G].
  destruct (right_rep O b n v Hn) as [w [Ew Hw]].
  destruct (right_rep O b m w Hm) as [u [Eu Hu]].
  destruct (right_rep O b (Nat.lxor n m) v Hx) as [x [Ex Hxx]].
  exists w, u, x. repeat (split; [assumption|]).
  apply smat_ext. intros k i Hk Hi.
  rewrite forallb_forall in G. specialize (G i ltac:(apply in_seq; lia)).
  rewrite andb_true_iff, !Nat.eqb_eq in G. destruct G as [G1 G2].
  destruct (tables_good_ok b m i Hm Hi) as [_ [_ [A1 A2]]].
  rewrite Hu, Hw by assumption.
  destruct (tables_good_ok b n _ Hn A2) as [_ [_ [B1 B2]]].
  destruct (tables_good_ok b _ i Hx Hi) as [_ [_ [C1 C2]]].
  rewrite ph_ph by assumption. rewrite G1, G2.
  destruct (odd_swaps n m).
  - unfold el2. rewrite el_vmap, el_vmap by assumption. fold (el2 x k i).
    rewrite Hxx by assumption. rewrite neg_is_ph, ph_ph by (assumption || lia). reflexivity.
  - rewrite Hxx by assumption. rewrite Nat.add_0_l, (Nat.mod_small _ 4 C1). reflexivity.
Qed.

(** The products are the products of generators. *)

Lemma products : forall b n v, n < 16 ->
  gamma_vec O b n v =
  then_gamma O b 0 (Nat.testbit n 0) (then_gamma O b 1 (Nat.testbit n 1)
    (then_gamma O b 2 (Nat.testbit n 2) (then_gamma O b 3 (Nat.testbit n 3) (Some v)))).
Proof.
  intros b n [x0 x1 x2 x3] H. revert n H. destruct b; apply below16;
  cbv -[e_neg e_timesI e_timesMinusI]; f_equal; f_equal;
  repeat first [ rewrite (timesMinusI_is O U) | rewrite (timesI_neg O U)
               | rewrite (timesI_twice O U) | rewrite (neg_neg O U) ]; reflexivity.
Qed.

End Algebra.

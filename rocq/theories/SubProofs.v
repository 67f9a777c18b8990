(** Proofs about the sub-lattice objects: the memory always shows the meaning of the program. *)
From Coq Require Import List Arith Bool Lia.
From Verif Require Import Base SubModel SubSpec.
Import ListNotations.
Local Open Scope nat_scope.

(** ** Lists *)

Lemma nth_put_at {A} (l : list A) k x i :
  nth_error (put_at l k x) i =
  if i =? k then match nth_error l k with Some _ => Some x | None => None end else nth_error l i.
Proof.
  revert k i. induction l as [|y l IH]; intros [|k] [|i]; simpl; auto;
    try (destruct (_ =? _); reflexivity).
Qed.

Lemma nth_app_last {A} (l : list A) x i :
  nth_error (l ++ [x]) i = if i =? length l then Some x else nth_error l i.
Proof.
  destruct (Nat.eqb_spec i (length l)) as [->|H].
  - rewrite nth_error_app2, Nat.sub_diag; auto.
  - destruct (Nat.lt_ge_cases i (length l)).
    + apply nth_error_app1. auto.
    + assert (E : nth_error l i = None) by (apply nth_error_None; auto). rewrite E.
      apply nth_error_None. rewrite app_length. simpl. lia.
Qed.

Definition at_both {A B} (R : A -> B -> Prop) (o : option A) (p : option B) : Prop :=
  match o, p with Some x, Some y => R x y | None, None => True | _, _ => False end.

Lemma Forall2_nth {A B} (R : A -> B -> Prop) l m :
  Forall2 R l m <-> forall i, at_both R (nth_error l i) (nth_error m i).
Proof.
  split.
  - intros H. induction H; intros [|i]; simpl; auto.
  - revert m. induction l as [|x l IH]; intros [|y m] H; auto.
    + specialize (H 0). contradiction.
    + specialize (H 0). contradiction.
    + constructor; [apply (H 0)|]. apply IH. intros i. apply (H (S i)).
Qed.

Lemma both_at {A B} (R : A -> B -> Prop) l m i x :
  Forall2 R l m -> nth_error l i = Some x -> exists y, nth_error m i = Some y /\ R x y.
Proof.
  intros H E. pose proof (proj1 (Forall2_nth R l m) H i) as Hi. unfold at_both in Hi.
  rewrite E in Hi. destruct (nth_error m i) as [y|]; [|contradiction]. eauto.
Qed.
Lemma both_none {A B} (R : A -> B -> Prop) l m i :
  Forall2 R l m -> nth_error l i = None -> nth_error m i = None.
Proof.
  intros H E. pose proof (proj1 (Forall2_nth R l m) H i) as Hi. unfold at_both in Hi.
  rewrite E in Hi. destruct (nth_error m i) as [y|]; [contradiction|]. auto.
Qed.

Lemma Forall2_len {A B} (R : A -> B -> Prop) l m : Forall2 R l m -> length l = length m.
Proof. induction 1; simpl; congruence. Qed.

Lemma tab_nth ss j i : nth_error ss j = Some i -> tab ss j = i.
Proof. intros H. unfold tab. apply nth_error_nth. auto. Qed.
Lemma tab_lt ss j : j < length ss -> nth_error ss j = Some (tab ss j).
Proof. intros H. apply nth_error_nth'. auto. Qed.
Lemma map_tab ss : map (tab ss) (seq 0 (length ss)) = ss.
Proof.
  induction ss as [|i ss IH]; simpl; auto. f_equal.
  rewrite <- seq_shift, map_map. exact IH.
Qed.

Section Proofs.
  Context {T : Type}.
  Notation heap := (heap T).
  Implicit Types h : heap.
  Implicit Types l : list (cell T).

  (** ** Heap *)

  Lemma nth_put l i c l' :
    put l i c = Some l' ->
    length l' = length l /\ forall p, nth_error l' p = if p =? i then Some c else nth_error l p.
  Proof.
    revert i l'. induction l as [|x l IH]; intros [|i] l' H; simpl in *; try discriminate.
    - injection H as <-. split; auto. intros [|p]; auto.
    - destruct (put l i c) as [m|] eqn:E; [|discriminate]. injection H as <-.
      destruct (IH _ _ E) as [H1 H2]. split; [simpl; auto|]. intros [|p]; auto. apply H2.
  Qed.
  Lemma put_some l i c : i < length l -> exists l', put l i c = Some l'.
  Proof.
    revert i. induction l as [|x l IH]; intros [|i] H; simpl in *; try lia; eauto.
    destruct (IH i) as [m ->]; [lia|]. simpl. eauto.
  Qed.

  (** [h'] is [h] with the contents of block [b] changed from [l] to [l']. *)
  Definition changed h b l h' l' : Prop :=
    blocks h b = Some l /\ blocks h' b = Some l' /\ length l' = length l /\
    (forall b', b' <> b -> blocks h' b' = blocks h b') /\ fresh h' = fresh h.

  Lemma changed_refl h b l : blocks h b = Some l -> changed h b l h l.
  Proof. intros H. repeat split; auto. Qed.

  Lemma store_ok h b l i c :
    blocks h b = Some l -> i < length l ->
    exists h' l', store h b i c = Val h' /\ changed h b l h' l' /\
      forall p, nth_error l' p = if p =? i then Some c else nth_error l p.
  Proof.
    intros Hb Hi. unfold store. rewrite Hb. destruct (put_some l i c Hi) as [l' E]. rewrite E.
    destruct (nth_put _ _ _ _ E) as [H1 H2].
    exists (set_block h b (Some l')), l'. split; [reflexivity|]. split; [|exact H2].
    unfold changed, set_block. cbn [blocks fresh]. rewrite Nat.eqb_refl.
    repeat split; auto. intros b' Hne. destruct (Nat.eqb_spec b' b); congruence.
  Qed.

  Section Loop.
    Variables (b : nat) (dst : nat -> nat) (val : heap -> nat -> res (cell T))
              (body : heap -> nat -> res heap).
    Hypothesis Hbody : forall h j, body h j = bind (val h j) (store h b (dst j)).

    (** The value of iteration [j] depends on block [b] only through the element it writes. *)
    Definition stable h l js : Prop :=
      forall h' l' j, In j js -> changed h b l h' l' ->
        nth_error l' (dst j) = nth_error l (dst j) -> val h' j = val h j.

    Lemma stable_step h l h1 l1 j js :
      stable h l (j :: js) -> changed h b l h1 l1 ->
      (forall p, p <> dst j -> nth_error l1 p = nth_error l p) ->
      ~ In (dst j) (map dst js) ->
      (forall j', In j' js -> val h1 j' = val h j') /\ stable h1 l1 js.
    Proof.
      intros S C Hp Hn.
      assert (Hne : forall j', In j' js -> dst j' <> dst j)
        by (intros j' Hj' E; apply Hn; rewrite <- E; apply in_map; auto).
      split.
      - intros j' Hj'. apply (S h1 l1 j'); [right; auto|auto|]. apply Hp. auto.
      - intros h2 l2 j' Hj' C2 E2.
        assert (C02 : changed h b l h2 l2).
        { destruct C as (A1 & A2 & A3 & A4 & A5), C2 as (B1 & B2 & B3 & B4 & B5).
          repeat split; auto; try congruence.
          intros b' Hb'. rewrite B4, A4; auto. }
        rewrite (S h2 l2 j'); [|right; auto|auto|].
        + symmetry. apply (S h1 l1 j'); [right; auto|auto|]. apply Hp. auto.
        + rewrite E2. apply Hp. auto.
    Qed.

    Lemma loop_ok js : forall h l,
      blocks h b = Some l -> NoDup (map dst js) -> (forall j, In j js -> dst j < length l) ->
      stable h l js -> (forall j, In j js -> exists c, val h j = Val c) ->
      exists h' l', loop js body h = Val h' /\ changed h b l h' l' /\
        (forall j c, In j js -> val h j = Val c -> nth_error l' (dst j) = Some c) /\
        (forall p, ~ In p (map dst js) -> nth_error l' p = nth_error l p).
    Proof.
      induction js as [|j js IH]; intros h l Hb Hd Hl Hs Hv.
      - exists h, l. split; [reflexivity|]. split; [apply changed_refl; auto|].
        split; [intros ? ? []|auto].
      - cbn [map] in Hd. inversion Hd as [|? ? Hn Hd']; subst.
        destruct (Hv j (or_introl eq_refl)) as [c Ec].
        destruct (store_ok h b l (dst j) c Hb (Hl j (or_introl eq_refl)))
          as (h1 & l1 & E1 & C1 & P1).
        assert (Q1 : forall p, p <> dst j -> nth_error l1 p = nth_error l p).
        { intros p Hp. rewrite P1. destruct (Nat.eqb_spec p (dst j)); congruence. }
        destruct (stable_step h l h1 l1 j js Hs C1 Q1 Hn) as [V1 S1].
        destruct C1 as (A1 & A2 & A3 & A4 & A5).
        destruct (IH h1 l1 A2 Hd') as (h2 & l2 & E2 & C2 & P2 & Q2).
        { intros j' Hj'. rewrite A3. apply Hl. right. auto. }
        { exact S1. }
        { intros j' Hj'. rewrite V1; auto. apply Hv. right. auto. }
        destruct C2 as (B1 & B2 & B3 & B4 & B5).
        exists h2, l2. split; [|split; [|split]].
        + cbn [loop]. rewrite Hbody, Ec. cbn [bind]. rewrite E1. cbn [bind]. exact E2.
        + repeat split; auto; try congruence.
          intros b' Hb'. rewrite B4, A4; auto.
        + intros j' c' [<-|Hj'] Ec'.
          * rewrite Q2; auto. rewrite P1, Nat.eqb_refl. congruence.
          * apply P2; auto. rewrite V1; auto.
        + intros p Hp. cbn [map] in Hp. rewrite Q2.
          * apply Q1. intros E. apply Hp. left. auto.
          * intros H. apply Hp. right. auto.
    Qed.

    Lemma loop_undef js : forall h l,
      blocks h b = Some l -> NoDup (map dst js) -> (forall j, In j js -> dst j < length l) ->
      stable h l js -> (forall j, In j js -> val h j <> Abort) ->
      (exists j, In j js /\ val h j = Undef) ->
      loop js body h = Undef.
    Proof.
      induction js as [|j js IH]; intros h l Hb Hd Hl Hs Hv (j0 & Hj0 & Hu); [destruct Hj0|].
      cbn [map] in Hd. inversion Hd as [|? ? Hn Hd']; subst.
      cbn [loop]. rewrite Hbody.
      pose proof (Hv j (or_introl eq_refl)) as Hva.
      destruct (val h j) as [c| |] eqn:Ec; [|congruence|reflexivity]. cbn [bind].
      destruct (store_ok h b l (dst j) c Hb (Hl j (or_introl eq_refl)))
        as (h1 & l1 & E1 & C1 & P1).
      rewrite E1. cbn [bind].
      assert (Q1 : forall p, p <> dst j -> nth_error l1 p = nth_error l p).
      { intros p Hp. rewrite P1. destruct (Nat.eqb_spec p (dst j)); congruence. }
      destruct (stable_step h l h1 l1 j js Hs C1 Q1 Hn) as [V1 S1].
      destruct C1 as (A1 & A2 & A3 & A4 & A5).
      apply (IH h1 l1 A2 Hd').
      - intros j' Hj'. rewrite A3. apply Hl. right. auto.
      - exact S1.
      - intros j' Hj'. rewrite V1; auto. apply Hv. right. auto.
      - destruct Hj0 as [<-|Hj0]; [congruence|]. exists j0. split; auto. rewrite V1; auto.
    Qed.
  End Loop.
End Proofs.

From Coq Require Import List Bool Arith Lia.
From Verif Require Import SingletonModel SingletonSpec.
Import ListNotations.
Open Scope nat_scope.

Definition after (r : result) : option state :=
  match r with Returns _ s | Throws s | Asserts s => Some s | Deeper => None end.

Lemma set_same {A} (f : nat -> A) k v : set f k v k = v.
Proof. unfold set. now rewrite Nat.eqb_refl. Qed.
Lemma set_other {A} (f : nat -> A) k v j : j <> k -> set f k v j = f j.
Proof. intros H. unfold set. now rewrite (proj2 (Nat.eqb_neq j k) H). Qed.

Section Any.
  Variable P : program.

  Lemma made_fun l o k k' : well_behaved (pol P) l -> In (Made o k) l -> In (Made o k') l -> k = k'.
  Proof.
    induction l as [|e l IH]; [easy|]. destruct e as [o1 k1|o1 k1|o1 k1]; cbn [well_behaved In].
    - intros (F & W) [A|A] [B|B]; try congruence.
      + assert (o1 = o) by congruence. subst. destruct (F k') as [N _]. contradiction.
      + assert (o1 = o) by congruence. subst. destruct (F k) as [N _]. contradiction.
      + auto.
    - intros (_ & W) [A|A] [B|B]; try congruence; auto.
    - intros (_ & _ & W) [A|A] [B|B]; try congruence; auto.
  Qed.

  Definition J (s : state) : Prop :=
    (forall k o, inst s k = Some o -> alive o k (log s)) /\
    (forall o, next s <= o -> fresh o (log s)) /\
    well_behaved (pol P) (log s) /\
    (forall k, In (Destroy k) (handlers s) -> pol P k <> NoDestroy).

  Lemma J_initial : J initial.
  Proof. repeat split; cbn; try easy. Qed.

  Lemma J_create k s o s' : J s -> create P k s = Returns o s' -> J s' /\ inst s' k = Some o.
  Proof.
    intros (A & B & C & D) E. unfold create in E.
    assert (o = next s) by congruence. subst o.
    assert (Q : s' = State (set (inst s) k (Some (next s))) (dead s) (once s)
      (if match pol P k with DefaultLifetime => true | PhoenixSingleton => atexit_fixed P || negb (once s k) | NoDestroy => false end
       then Destroy k :: handlers s else handlers s) (S (next s)) (Used (next s) k :: Made (next s) k :: log s)) by congruence.
    clear E. subst s'. cbn [inst]. split; [|apply set_same].
    pose proof (B (next s) (le_n _)) as F.
    split; [|split; [|split]]; cbn [inst next log handlers].
    - intros j o. destruct (Nat.eq_dec j k) as [->|N].
      + rewrite set_same. intros E. assert (o = next s) by congruence. subst o. split; [right; now left|].
        intros k' [G|[G|G]]; try discriminate. now apply (F k').
      + rewrite set_other by exact N. intros E. destruct (A j o E) as [A1 A2]. split; [now do 2 right|].
        intros k' [G|[G|G]]; try discriminate. now apply (A2 k').
    - intros o O k'. destruct (B o ltac:(lia) k') as (B1 & B2 & B3). cbn [In].
      split; [|split]; intros [G|[G|G]]; try discriminate; try contradiction; injection G as G1 G2; lia.
    - cbn [well_behaved]. split; [|split; [exact F|exact C]]. split; [now left|].
      intros k' [G|G]; [discriminate|]. now apply (F k').
    - intros j. destruct (pol P k) eqn:PK; [|destruct (atexit_fixed P || negb (once s k))|]; try exact (D j);
        (intros [G|G]; [injection G as <-; congruence|exact (D j G)]).
  Qed.

  Lemma J_same s i : J s -> inst i = inst s -> next i = next s -> log i = log s -> handlers i = handlers s -> J i.
  Proof. intros (A & B & C & D) E1 E2 E3 E4. unfold J. rewrite E1, E2, E3, E4. exact (conj A (conj B (conj C D))). Qed.

  (** What a call may rely on and leaves behind. *)
  Definition good (k : nat) (s : state) (r : result) : Prop :=
    (forall s', after r = Some s' -> J s') /\
    (forall o s', r = Returns o s' -> inst s' k = Some o /\ (forall j p, inst s j = Some p -> inst s' j = Some p)).

  Lemma J_calls (call : nat -> state -> result) ks : (forall k s, J s -> good k s (call k s)) ->
    forall s, J s ->
      (forall s', after (call_all call ks s) = Some s' -> J s') /\
      (forall o s', call_all call ks s = Returns o s' ->
         (forall j p, inst s j = Some p -> inst s' j = Some p) /\ (forall j, In j ks -> inst s' j <> None)).
  Proof.
    intros H. induction ks as [|k ks IH]; intros s HJ; cbn [call_all].
    - split; [cbn; congruence|]. intros o s' E. assert (s' = s) by congruence. subst s'. split; [auto|easy].
    - destruct (H k s HJ) as [G1 G2]. destruct (call k s) as [o1 s1|s1|s1|] eqn:C.
      + destruct (G2 o1 s1 eq_refl) as [I1 K1]. destruct (IH s1 (G1 s1 eq_refl)) as [L1 L2]. split; [exact L1|].
        intros o s' E. destruct (L2 o s' E) as [M1 M2]. split; [auto|]. intros j [<-|IN]; [|auto].
        rewrite (M1 k o1 I1). discriminate.
      + split; [exact G1|discriminate].
      + split; [exact G1|discriminate].
      + split; [exact G1|discriminate].
  Qed.

  Lemma revive_same k s s0 : revive P k s = Some s0 ->
    inst s0 = inst s /\ next s0 = next s /\ log s0 = log s /\ handlers s0 = handlers s.
  Proof.
    unfold revive. destruct (dead s k); [destruct (pol P k); [discriminate| |]|]; intros E;
      injection E as <-; repeat split.
  Qed.

  Lemma J_instance f : forall k s, J s -> good k s (instance P f k s).
  Proof.
    induction f as [|f IH]; intros k s HJ; cbn [instance]; [split; discriminate|].
    destruct (inst s k) as [o|] eqn:I.
    - destruct HJ as (A & B & C & D). split.
      + intros s' E. cbn in E. injection E as <-.
        split; [|split; [|split]]; cbn [inst next log handlers].
        * intros j p Q. destruct (A j p Q) as [A1 A2]. split; [now right|]. intros k' [G|G]; [discriminate|]. now apply (A2 k').
        * intros p O k'. destruct (B p O k') as (B1 & B2 & B3). cbn [In].
          split; [|split]; intros [G|G]; try discriminate; try contradiction. injection G as G1 G2. subst.
          destruct (A _ _ I) as [A1 _]. exact (B1 A1).
        * cbn [well_behaved]. split; [exact (A k o I)|exact C].
        * exact D.
      + intros p s' E. assert (p = o) by congruence. subst p.
        assert (Q : s' = State (inst s) (dead s) (once s) (handlers s) (next s) (Used o k :: log s)) by congruence.
        subst s'. cbn [inst]. auto.
    - destruct (revive P k s) as [s0|] eqn:RV.
      2: { split; [|discriminate]. intros s' E. cbn in E. now injection E as <-. }
      destruct (revive_same k s s0 RV) as (R1 & R2 & R3 & R4).
      pose proof (J_same s s0 HJ R1 R2 R3 R4) as J0.
      destruct (J_calls (instance P f) (ctor P k) IH s0 J0) as [L1 L2].
      destruct (call_all (instance P f) (ctor P k) s0) as [o1 s1|s1|s1|] eqn:C; try (split; [exact L1|discriminate]).
      destruct (L2 o1 s1 eq_refl) as [M1 M2]. pose proof (L1 s1 eq_refl) as J1.
      destruct (create P k s1) as [o2 s2|s2|s2|] eqn:CR; try discriminate.
      destruct (J_create k s1 o2 s2 J1 CR) as [J2 I2]. split.
      + intros s' E. cbn in E. now injection E as <-.
      + intros o s' E. assert (o = o2) by congruence. assert (s' = s2) by congruence. subst o s'. split; [exact I2|].
        intros j p Q. unfold create in CR.
        assert (N : j <> k) by (intros ->; congruence).
        assert (QI : inst s2 = set (inst s1) k (Some (next s1))) by (injection CR as _ <-; reflexivity).
        rewrite QI, set_other by exact N. apply M1. now rewrite R1.
  Qed.

  Lemma J_pop s h hs : J s -> handlers s = h :: hs -> J (State (inst s) (dead s) (once s) hs (next s) (log s)).
  Proof.
    intros (A & B & C & D) E. split; [|split; [|split]]; cbn; auto. intros k I. apply D. rewrite E. now right.
  Qed.

  Lemma J_destroy f k s : J s -> pol P k <> NoDestroy ->
    forall s', after (destroy_singleton P f k s) = Some s' -> J s'.
  Proof.
    intros HJ NP s' E. unfold destroy_singleton in E. destruct (dead s k).
    - cbn in E. now injection E as <-.
    - destruct (inst s k) as [o|] eqn:I.
      + destruct (J_calls (instance P f) (dtor P k) (J_instance f) s HJ) as [L1 L2].
        destruct (call_all (instance P f) (dtor P k) s) as [o1 s1|s1|s1|] eqn:C; try (now apply L1).
        destruct (L2 o1 s1 eq_refl) as [M1 _]. pose proof (M1 k o I) as I1.
        destruct (L1 s1 eq_refl) as (A & B & W & D). cbn in E. injection E as <-.
        split; [|split; [|split]]; cbn [inst next log handlers].
        * intros j p. destruct (Nat.eq_dec j k) as [->|N]; [rewrite set_same; discriminate|].
          rewrite set_other by exact N. intros Q. destruct (A j p Q) as [A1 A2]. split; [now right|].
          intros k' [G|G]; [|now apply (A2 k')]. injection G as G1 G2. subst p.
          destruct (A k o I1) as [B1 _]. apply N. exact (made_fun _ _ _ _ W A1 B1).
        * intros p O k'. destruct (B p O k') as (B1 & B2 & B3). cbn [In].
          split; [|split]; intros [G|G]; try discriminate; try contradiction. injection G as G1 G2. subst.
          destruct (A _ _ I1) as [A1 _]. exact (B1 A1).
        * cbn [well_behaved]. split; [exact (A k o I1)|]. split; [exact NP|exact W].
        * exact D.
      + cbn in E. injection E as <-. apply (J_same s); auto.
  Qed.

  Lemma J_exit f n : forall s, J s -> forall s', after (exit_program P n f s) = Some s' -> J s'.
  Proof.
    induction n as [|n IH]; intros s HJ s'; cbn [exit_program]; destruct (handlers s) as [|h hs] eqn:HS;
      try (cbn; intros E; now injection E as <-); [discriminate|].
    pose proof (J_pop s h hs HJ HS) as J0. set (s0 := State (inst s) (dead s) (once s) hs (next s) (log s)) in *.
    assert (ST : forall t, after (match h with Destroy k => destroy_singleton P f k s0 | UserFn ks => call_all (instance P f) ks s0 end) = Some t -> J t).
    { destruct h as [k|ks].
      - apply J_destroy; [exact J0|]. destruct HJ as (_ & _ & _ & D). apply D. rewrite HS. now left.
      - apply (J_calls (instance P f) ks (J_instance f) s0 J0). }
    destruct (match h with Destroy k => destroy_singleton P f k s0 | UserFn ks => call_all (instance P f) ks s0 end) as [o1 s1|s1|s1|];
      try exact (ST s'). apply IH. now apply ST.
  Qed.

  Lemma J_main f h : forall rs s, J s -> (forall k o, In (k, o) rs -> inst s k = Some o) ->
    forall rs' r, main_program P f h rs s = (rs', r) ->
    (forall s', after r = Some s' -> J s') /\
    (forall o s', r = Returns o s' -> forall k o, In (k, o) rs' -> inst s' k = Some o).
  Proof.
    induction h as [|[k|ks] h IH]; intros rs s HJ R rs' r E; cbn [main_program] in E.
    - injection E as <- <-. split; [cbn; intros s' Q; now injection Q as <-|]. intros o s' Q. injection Q as _ <-. exact R.
    - destruct (J_instance f k s HJ) as [G1 G2]. destruct (instance P f k s) as [o1 s1|s1|s1|] eqn:C;
        try (injection E as <- <-; split; [exact G1|discriminate]).
      destruct (G2 o1 s1 eq_refl) as [I1 M1]. apply (IH _ s1 (G1 s1 eq_refl)) in E; [exact E|].
      intros k' o' [Q|Q]; [congruence|auto].
    - apply (IH rs _) in E; auto.
      destruct HJ as (A & B & C & D). split; [|split; [|split]]; cbn; auto.
      intros k [Q|Q]; [discriminate|auto].
  Qed.
End Any.

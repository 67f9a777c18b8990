From Coq Require Import List Bool Arith Lia.
From Verif Require Import SingletonModel SingletonSpec SingletonProofs.
Import ListNotations.
Open Scope nat_scope.

Fixpoint order (hs : list handler) : list nat :=
  match hs with [] => [] | Destroy k :: r => k :: order r | UserFn _ :: r => order r end.

Section Exit.
  Variable P : program.
  Variable rank : nat -> nat.
  Hypothesis RK : forall k j, In j (ctor P k) -> rank j < rank k.
  Hypothesis NP : forall k, pol P k <> PhoenixSingleton.
  Hypothesis DT : forall k j, In j (dtor P k) -> pol P j = NoDestroy \/ In j (ctor P k).
  Hypothesis ND : forall k j, pol P k = NoDestroy -> In j (ctor P k) -> pol P j = NoDestroy.

  Lemma two k : pol P k = DefaultLifetime \/ pol P k = NoDestroy.
  Proof. pose proof (NP k). destruct (pol P k); auto. congruence. Qed.

  (** Nothing that matters for singletons with DefaultLifetime changed. *)
  Definition quiet (s s' : state) : Prop :=
    handlers s' = handlers s /\ dead s' = dead s /\
    (forall j, pol P j = DefaultLifetime -> inst s' j = inst s j) /\
    mades (pol P) (log s') = mades (pol P) (log s) /\ gones (pol P) (log s') = gones (pol P) (log s).
  Lemma quiet_refl s : quiet s s.
  Proof. repeat split; auto. Qed.
  Lemma quiet_trans a b c : quiet a b -> quiet b c -> quiet a c.
  Proof.
    intros (A1 & A2 & A3 & A4 & A5) (B1 & B2 & B3 & B4 & B5). repeat split; try congruence.
    intros j H. rewrite B3, A3 by assumption. reflexivity.
  Qed.

  Definition kept (s : state) : Prop := forall k, pol P k = NoDestroy -> dead s k = false.

  Lemma used_quiet f k s o : inst s k = Some o -> exists s', instance P (S f) k s = Returns o s' /\ quiet s s'.
  Proof. intros I. cbn [instance]. rewrite I. eexists. split; [reflexivity|]. repeat split; auto. Qed.

  Lemma nd_call f : forall k s, rank k < f -> pol P k = NoDestroy -> kept s ->
    exists o s', instance P f k s = Returns o s' /\ quiet s s'.
  Proof.
    induction f as [|f IH]; intros k s F PK K; [lia|].
    destruct (inst s k) as [o|] eqn:I.
    { destruct (used_quiet f k s o I) as (s' & E & Q). eauto. }
    cbn [instance]. rewrite I. unfold revive. rewrite (K k PK).
    assert (ALL : forall ks, (forall j, In j ks -> rank j < f /\ pol P j = NoDestroy) -> forall t, kept t ->
      exists o s', call_all (instance P f) ks t = Returns o s' /\ quiet t s').
    { induction ks as [|j ks IHks]; intros H t KT; cbn [call_all]; [exists 0, t; split; [reflexivity|apply quiet_refl]|].
      destruct (H j (or_introl eq_refl)) as [H1 H2]. destruct (IH j t H1 H2 KT) as (o1 & t1 & E1 & Q1). rewrite E1.
      destruct (IHks (fun j' I' => H j' (or_intror I')) t1) as (o2 & t2 & E2 & Q2).
      { intros q PQ. destruct Q1 as (_ & Q1 & _). rewrite Q1. now apply KT. }
      exists o2, t2. split; [exact E2|]. eapply quiet_trans; eauto. }
    destruct (ALL (ctor P k)) with (t := s) as (o1 & s1 & E1 & Q1); [|exact K|].
    { intros j IN. split; [pose proof (RK k j IN); lia|exact (ND k j PK IN)]. }
    rewrite E1. unfold create. rewrite PK. eexists _, _. split; [reflexivity|]. eapply quiet_trans; [exact Q1|].
    repeat split; auto.
    - intros j D. cbn [inst]. apply set_other. congruence.
    - cbn [log mades]. now rewrite PK.
  Qed.

  Lemma quiet_calls f ks : (forall j, In j ks -> rank j < f) ->
    forall s, kept s -> (forall j, In j ks -> pol P j = NoDestroy \/ (pol P j = DefaultLifetime /\ inst s j <> None)) ->
    exists o s', call_all (instance P f) ks s = Returns o s' /\ quiet s s'.
  Proof.
    induction ks as [|j ks IH]; intros F s K H; cbn [call_all]; [exists 0, s; split; [reflexivity|apply quiet_refl]|].
    assert (C : exists o s', instance P f j s = Returns o s' /\ quiet s s').
    { destruct (H j (or_introl eq_refl)) as [H1|[_ H1]].
      - apply nd_call; auto. apply F. now left.
      - pose proof (F j (or_introl eq_refl)). destruct f as [|f]; [lia|].
        destruct (inst s j) as [o|] eqn:I; [|congruence]. destruct (used_quiet f j s o I) as (s' & E & Q). eauto. }
    destruct C as (o1 & s1 & E1 & Q1). rewrite E1.
    destruct (IH (fun j' I' => F j' (or_intror I')) s1) as (o2 & s2 & E2 & Q2).
    - intros q PQ. destruct Q1 as (_ & Q1 & _). rewrite Q1. now apply K.
    - intros j' I'. destruct (H j' (or_intror I')) as [H1|[H1 H2]]; [now left|right].
      split; [exact H1|]. destruct Q1 as (_ & _ & Q1 & _). now rewrite (Q1 j' H1).
    - exists o2, s2. split; [exact E2|]. eapply quiet_trans; eauto.
  Qed.

  (** Below each singleton in the list of handlers are those its constructor used. *)
  Fixpoint deps (l : list nat) : Prop :=
    match l with
    | [] => True
    | k :: r => (forall j, In j (ctor P k) -> pol P j = DefaultLifetime -> In j r) /\ deps r
    end.

  Definition C (s : state) : Prop :=
    NoDup (order (handlers s)) /\
    (forall k, In k (order (handlers s)) <-> pol P k = DefaultLifetime /\ inst s k <> None) /\
    kept s /\ (forall k, In k (order (handlers s)) -> dead s k = false) /\
    deps (order (handlers s)) /\
    (forall ks j, In (UserFn ks) (handlers s) -> In j ks -> pol P j = NoDestroy) /\
    map Some (mades (pol P) (log s)) = map Some (rev (gones (pol P) (log s))) ++ map (inst s) (order (handlers s)).

  Lemma map_inst (f g : nat -> option nat) l : (forall k, In k l -> f k = g k) -> map f l = map g l.
  Proof. apply map_ext_in. Qed.

  Lemma C_quiet s s' : C s -> quiet s s' -> C s'.
  Proof.
    intros (C1 & C2 & C3 & C4 & C5 & C6 & C7) (Q1 & Q2 & Q3 & Q4 & Q5). unfold C, kept. rewrite Q1, Q2, Q4, Q5.
    split; [exact C1|]. split; [|split; [exact C3|split; [exact C4|split; [exact C5|split; [exact C6|]]]]].
    - intros k. rewrite (C2 k). split; intros [A B]; (split; [exact A|]); rewrite ?(Q3 k A) in *; assumption.
    - rewrite C7. f_equal. apply map_inst. intros k I. symmetry. apply Q3. now apply C2.
  Qed.

  (** ** main *)
  Definition M (s : state) : Prop := C s /\ (forall k, dead s k = false) /\ gones (pol P) (log s) = [].

  Lemma M_call f : forall k s, rank k < f -> M s ->
    exists o s', instance P f k s = Returns o s' /\ M s' /\ inst s' k = Some o /\
      (forall j p, inst s j = Some p -> inst s' j = Some p) /\
      (forall j, rank k < rank j -> inst s j = None -> inst s' j = None) /\
      (forall ks, In (UserFn ks) (handlers s') -> In (UserFn ks) (handlers s)).
  Proof.
    induction f as [|f IH]; intros k s F (HC & HD & HG); [lia|]. cbn [instance].
    destruct (inst s k) as [o|] eqn:I.
    { exists o. eexists. split; [reflexivity|]. split; [|cbn [inst handlers]; auto].
      split; [|split; [exact HD|exact HG]]. apply (C_quiet s); [exact HC|]. repeat split; auto. }
    unfold revive. rewrite (HD k).
    assert (ALL : forall ks, (forall j, In j ks -> rank j < f /\ rank j < rank k) -> forall t, M t ->
      exists o s', call_all (instance P f) ks t = Returns o s' /\ M s' /\
        (forall j, In j ks -> inst s' j <> None) /\
        (forall j p, inst t j = Some p -> inst s' j = Some p) /\
        (forall j, rank k <= rank j -> inst t j = None -> inst s' j = None) /\
        (forall ks, In (UserFn ks) (handlers s') -> In (UserFn ks) (handlers t))).
    { induction ks as [|j ks IHks]; intros H t MT; cbn [call_all]; [exists 0, t; split; [reflexivity|split; [exact MT|split; [intros j []|auto]]]|].
      destruct (H j (or_introl eq_refl)) as [H1 H2]. destruct (IH j t H1 MT) as (o1 & t1 & E1 & M1 & I1 & K1 & L1 & U1). rewrite E1.
      destruct (IHks (fun j' I' => H j' (or_intror I')) t1 M1) as (o2 & t2 & E2 & M2 & I2 & K2 & L2 & U2).
      exists o2, t2. split; [exact E2|]. split; [exact M2|]. split; [|split; [|split]].
      - intros j' [<-|I']; [rewrite (K2 j o1 I1); discriminate|auto].
      - auto.
      - intros j' R' N'. apply L2; [exact R'|]. apply L1; [lia|exact N'].
      - auto. }
    destruct (ALL (ctor P k)) with (t := s) as (o1 & s1 & E1 & (C1 & D1 & G1) & I1 & K1 & L1 & U1).
    { intros j IN. pose proof (RK k j IN). lia. }
    { exact (conj HC (conj HD HG)). }
    rewrite E1. pose proof (L1 k (le_n _) I) as N1. unfold create. eexists _, _. split; [reflexivity|].
    assert (REST : set (inst s1) k (Some (next s1)) k = Some (next s1) /\
      (forall j p, inst s j = Some p -> set (inst s1) k (Some (next s1)) j = Some p) /\
      (forall j, rank k < rank j -> inst s j = None -> set (inst s1) k (Some (next s1)) j = None)).
    { split; [apply set_same|]. split.
      - intros j p Q. rewrite set_other by (intros ->; congruence). now apply K1.
      - intros j R' Q. rewrite set_other by (intros ->; lia). apply L1; [lia|exact Q]. }
    destruct REST as (R1 & R2 & R3).
    destruct (two k) as [PK|PK]; rewrite PK.
    - split; [|cbn [inst handlers]; split; [exact R1|split; [exact R2|split; [exact R3|]]]].
      2: { intros ks [Q|Q]; [discriminate|now apply U1]. }
      split; [|split; [exact D1|cbn [log gones]; exact G1]].
      destruct C1 as (A1 & A2 & A3 & A4 & A5 & A6 & A7). unfold C, kept. cbn [handlers order inst dead log].
      assert (NK : ~ In k (order (handlers s1))) by (rewrite A2; intros [_ Q]; congruence).
      split; [now constructor|]. split; [|split; [|split; [|split; [|split]]]].
      + intros j. cbn [In]. rewrite A2. destruct (Nat.eq_dec j k) as [->|N].
        * rewrite set_same. split; [intros _; split; [exact PK|discriminate]|now left].
        * rewrite set_other by exact N. split; [intros [Q|Q]; [congruence|exact Q]|now right].
      + intros j _. apply D1.
      + intros j _. apply D1.
      + split; [|exact A5]. intros j IN PJ. apply A2. split; [exact PJ|now apply I1].
      + intros ks j [Q|Q]; [discriminate|now apply A6].
      + cbn [mades gones]. rewrite PK, G1. cbn [rev map app]. rewrite set_same. f_equal. rewrite A7, G1. cbn [rev map app].
        apply map_inst. intros j J. symmetry. apply set_other. intros ->. contradiction.
    - split; [|cbn [inst handlers]; auto]. split; [|split; [exact D1|cbn [log gones]; exact G1]].
      apply (C_quiet s1); [exact C1|]. repeat split; auto.
      + intros j PJ. cbn [inst]. apply set_other. congruence.
      + cbn [log mades]. now rewrite PK.
  Qed.

  Lemma M_initial : M initial.
  Proof.
    split; [|split; reflexivity]. repeat split; cbn; try easy; try constructor; intros; try tauto.
  Qed.

  Lemma M_main f h : (forall k, rank k < f) -> (forall ks j, In (AtExit ks) h -> In j ks -> pol P j = NoDestroy) ->
    forall rs s, M s -> exists rs' s', main_program P f h rs s = (rs', Returns 0 s') /\ M s'.
  Proof.
    intros F. induction h as [|[k|ks] h IH]; intros U rs s HM; cbn [main_program].
    - eauto.
    - destruct (M_call f k s (F k) HM) as (o1 & s1 & E1 & M1 & _). rewrite E1. apply IH; [|exact M1].
      intros ks j I. apply U. now right.
    - apply IH; [intros ks' j I; apply U; now right|].
      destruct HM as ((A1 & A2 & A3 & A4 & A5 & A6 & A7) & D & G).
      split; [|split; [exact D|exact G]]. unfold C. cbn [handlers order inst dead log].
      do 5 (split; [assumption|]). split; [|exact A7].
      intros ks' j [Q|Q] J; [|now apply (A6 ks')]. assert (ks = ks') by congruence. subst. apply (U ks' j); [now left|exact J].
  Qed.

  (** ** exit *)
  Lemma C_exit f (F : forall k, rank k < f) n : forall s, C s -> length (handlers s) <= n ->
    exists s', exit_program P n f s = Returns 0 s' /\ C s' /\ handlers s' = [] /\
      mades (pol P) (log s') = mades (pol P) (log s).
  Proof.
    induction n as [|n IH]; intros s HC L; cbn [exit_program]; destruct (handlers s) as [|h hs] eqn:HS;
      try (exists s; split; [reflexivity|split; [exact HC|split; [exact HS|reflexivity]]]); [cbn in L; lia|].
    cbn [length] in L. set (s0 := State (inst s) (dead s) (once s) hs (next s) (log s)).
    destruct HC as (A1 & A2 & A3 & A4 & A5 & A6 & A7). rewrite HS in *.
    destruct h as [k|ks]; cbn [order] in *.
    - assert (NK : ~ In k (order hs)) by (inversion A1; assumption).
      destruct (proj1 (A2 k) (or_introl eq_refl)) as [PK IK].
      unfold destroy_singleton. cbn [dead inst s0]. rewrite (A4 k (or_introl eq_refl)).
      destruct (inst s k) as [o|] eqn:I; [clear IK|congruence].
      destruct (quiet_calls f (dtor P k) (fun j _ => F j) s0) as (o1 & s1 & E1 & (Q1 & Q2 & Q3 & Q4 & Q5)).
      + exact A3.
      + intros j J. destruct (two j) as [PJ|PJ]; [right|now left]. split; [exact PJ|].
        destruct (DT k j J) as [B|B]; [congruence|]. cbn [inst s0]. apply (A2 j). right.
        destruct A5 as [A5 _]. now apply A5.
      + fold s0. rewrite E1. cbn [handlers dead inst log s0] in Q1, Q2, Q3, Q4, Q5.
        set (s2 := State (set (inst s1) k None) (set (dead s1) k true) (once s1) (handlers s1) (next s1) (Gone o k :: log s1)).
        assert (SAME : map (inst s2) (order hs) = map (inst s) (order hs)).
        { apply map_inst. intros j J. cbn [inst s2]. rewrite set_other by (intros ->; contradiction). apply Q3. apply A2. now right. }
        assert (C2 : C s2).
        2: { destruct (IH s2 C2) as (s' & X1 & X2 & X3 & X4); [cbn [handlers s2]; rewrite Q1; lia|].
             exists s'. split; [exact X1|]. split; [exact X2|]. split; [exact X3|]. rewrite X4. cbn [log s2 mades]. exact Q4. }
        unfold C, kept. change (handlers s2) with (handlers s1). rewrite Q1.
        split; [now inversion A1|]. split; [|split; [|split; [|split; [|split]]]].
        * intros j. cbn [inst s2]. destruct (Nat.eq_dec j k) as [->|N].
          -- rewrite set_same. split; [contradiction|intros [_ Q]; congruence].
          -- rewrite set_other by exact N. split.
             ++ intros J. destruct (proj1 (A2 j) (or_intror J)) as [B1 B2]. split; [exact B1|]. now rewrite Q3.
             ++ intros [B1 B2]. rewrite Q3 in B2 by exact B1. destruct (proj2 (A2 j) (conj B1 B2)) as [Q|Q]; [congruence|exact Q].
        * intros j PJ. cbn [dead s2]. rewrite set_other by congruence. rewrite Q2. now apply A3.
        * intros j J. cbn [dead s2]. rewrite set_other by (intros ->; contradiction). rewrite Q2. apply A4. now right.
        * apply A5.
        * intros ks j Q. apply A6. now right.
        * cbn [log s2 mades gones]. rewrite PK, Q4, Q5, SAME, A7. cbn [map rev]. rewrite map_app, <- app_assoc, I. reflexivity.
    - destruct (quiet_calls f ks (fun j _ => F j) s0) as (o1 & s1 & E1 & Q).
      + exact A3.
      + intros j J. left. apply (A6 ks); [now left|exact J].
      + rewrite E1. destruct (IH s1) as (s' & X1 & X2 & X3 & X4); cycle 2.
        * exists s'. split; [exact X1|]. split; [exact X2|]. split; [exact X3|]. rewrite X4. apply Q.
        * apply (C_quiet s0); [|exact Q]. unfold C. cbn [handlers inst dead log s0]. do 5 (split; [assumption|]).
          split; [|exact A7]. intros ks' j QQ. apply A6. now right.
        * destruct Q as (Q1 & _). rewrite Q1. cbn [handlers s0]. lia.
  Qed.

  Lemma some_inj (a b : list nat) : map Some a = map Some b -> a = b.
  Proof. revert b. induction a as [|x a IH]; intros [|y b] E; try discriminate; [reflexivity|]. cbn in E. injection E as -> E. f_equal. auto. Qed.
End Exit.

(** Commands on HDF5 files keep what they do not name. *)
From Coq Require Import String Ascii List Arith NArith Bool Lia.
From Verif Require Import Base H5DirModel H5DirSpec H5DirProofs H5DirOps.
Import ListNotations.
Local Open Scope nat_scope.
Local Notation length := List.length.

Lemma kept_refl F p : kept F F p.
Proof. now split. Qed.
Lemma kept_trans F1 F2 F3 p : kept F1 F2 p -> kept F2 F3 p -> kept F1 F3 p.
Proof. intros [A B] [C D]. split; [congruence|]. intro a. now rewrite D. Qed.
Lemma kept_groups F F' q p : with_groups F F' q -> obj F p <> None -> kept F F' p.
Proof. intros (_ & _ & A & B) H. split; [now apply A|]. intro a. apply B. Qed.
Lemma kept_object F F' q o p : with_object F F' q o -> p <> q -> kept F F' p.
Proof. intros (_ & _ & A) H. now apply A. Qed.
Lemma kept_att F F' q a v p : with_att F F' q a v -> p <> q -> kept F F' p.
Proof. intros (A & _ & B) H. split; [apply A|]. intro b. apply B. congruence. Qed.

(** All objects that were there are kept. *)
Definition keeps_all (F F' : file) : Prop := forall p, obj F p <> None -> kept F F' p.
Lemma keeps_all_trans F1 F2 F3 : keeps_all F1 F2 -> keeps_all F2 F3 -> keeps_all F1 F3.
Proof.
  intros A B p H. apply (kept_trans _ F2); [now apply A|]. apply B. destruct (A p H) as [E _]. now rewrite E.
Qed.

Lemma digit_proper i : i < 10 -> proper (digit i).
Proof.
  intro H. assert (E : digit i = "0"%string \/ digit i = "1"%string \/ digit i = "2"%string \/ digit i = "3"%string \/ digit i = "4"%string \/
    digit i = "5"%string \/ digit i = "6"%string \/ digit i = "7"%string \/ digit i = "8"%string \/ digit i = "9"%string).
  { do 10 (destruct i as [|i]; [tauto|]). lia. }
  assert (K : forall c, c <> slash -> c <> "."%char -> proper (String c "")).
  { intros c H1 H2. split; [discriminate|]. split; [congruence|]. intros a b Eab.
    destruct a as [|x a]; cbn in Eab; [injection Eab as E1 _; now apply H1|]. injection Eab as _ E2. now destruct a. }
  repeat (destruct E as [E|E]; [rewrite E; apply K; discriminate|]). rewrite E. apply K; discriminate.
Qed.

Section P.
  Variables (dot : bool) (att_max : nat).

  Lemma write_new k s d x p : good x -> denotes (s_cwd x) s p -> k <> KString ->
    match write dot k s d false x with
    | Ok y => good y /\ s_cwd y = s_cwd x /\ obj (s_file x) p = None /\ keeps_all (s_file x) (s_file y)
    | Stop F => F = s_file x
    | _ => False
    end.
  Proof.
    intros HG HD Hk. pose proof (write_any dot k s d false x p HG HD) as H.
    destruct (write dot k s d false x) as [y|F| |] eqn:E; try exact H.
    destruct H as (Gy & Cy & W). split; [assumption|]. split; [assumption|].
    assert (HN : obj (s_file x) p = None).
    { destruct (obj (s_file x) p) as [o|] eqn:HO; [|reflexivity]. exfalso.
      destruct (denotes_facts _ _ _ HD) as (_ & _ & _ & HA).
      unfold write in E. rewrite (exists_ok dot _ _ _ _ (proj1 HG) HD), HO in E. cbn [negb] in E. destruct k; try discriminate. contradiction. }
    split; [assumption|]. intros q Hq. destruct W as [->|W]; [apply kept_refl|]. apply (kept_object _ _ _ _ _ W). congruence.
  Qed.

  Local Opaque kind_name limit data_string write_att write.
  Definition qlua_step (y : st) (id : nat * data) : out st :=
    obind (write dot KLattice (digit (fst id)) (snd id) false y) (fun y =>
    write_att dot att_max true (digit (fst id)) ".kind" (data_string kind_name) false y).
  Lemma qlua_step_any y id : good y -> fst id < 10 ->
    match qlua_step y id with
    | Ok z => good z /\ s_cwd z = s_cwd y /\ keeps_all (s_file y) (s_file z)
    | Stop F => tree F /\ keeps_all (s_file y) F
    | _ => False
    end.
  Proof.
    intros HG Hi. unfold qlua_step.
    assert (HD : forall z, s_cwd z = s_cwd y -> denotes (s_cwd z) (digit (fst id)) (h5_abs (s_cwd y) (digit (fst id)))).
    { intros z <-. apply (spells_denotes _ _ [digit (fst id)]). constructor. now apply digit_proper. }
    set (p := h5_abs (s_cwd y) (digit (fst id))) in *.
    pose proof (write_new KLattice (digit (fst id)) (snd id) y p HG (HD y eq_refl)) as H.
    destruct (write dot KLattice (digit (fst id)) (snd id) false y) as [z|F| |]; cbn [obind].
    - destruct H as (Gz & Cz & HN & K); [discriminate|].
      assert (KA : forall F', (exists v, with_att (s_file z) F' p ".kind" v) -> keeps_all (s_file y) F').
      { intros F' [v W] q Hq. apply (kept_trans _ (s_file z)); [exact (K q Hq)|]. apply (kept_att _ _ _ _ _ _ W).
        intro E. apply Hq. rewrite E. exact HN. }
      pose proof (write_att_any dot att_max true (digit (fst id)) ".kind" (data_string kind_name) false z p Gz (HD z Cz)) as H.
      destruct (write_att dot att_max true (digit (fst id)) ".kind" (data_string kind_name) false z) as [u|F| |]; try exact H.
      + destruct H as (Gu & Cu & W). split; [assumption|]. split; [congruence|]. exact (KA _ W).
      + destruct H as (Tu & W). split; [assumption|]. exact (KA _ W).
    - rewrite H by discriminate. split; [apply HG|]. intros q _. apply kept_refl.
    - apply H; discriminate.
    - apply H; discriminate.
  Qed.
  Lemma fold_stuck l r : (forall y, r <> Ok y) -> fold_left (fun r id => obind r (fun y => qlua_step y id)) l r = r.
  Proof.
    intros H. induction l as [|a l IH]; [reflexivity|]. cbn [fold_left].
    assert (E : obind r (fun y => qlua_step y a) = r) by (destruct r; [now contradiction (H a0)|reflexivity|reflexivity|reflexivity]).
    now rewrite E.
  Qed.
  Lemma qlua_loop l y : good y -> Forall (fun id => fst id < 10) l ->
    match fold_left (fun r id => obind r (fun y => qlua_step y id)) l (Ok y) with
    | Ok z => good z /\ s_cwd z = s_cwd y /\ keeps_all (s_file y) (s_file z)
    | Stop F => tree F /\ keeps_all (s_file y) F
    | _ => False
    end.
  Proof.
    revert y. induction l as [|id l IH]; intros y HG HF.
    - cbn. split; [assumption|]. split; [reflexivity|]. intros p _. apply kept_refl.
    - inversion HF as [|? ? H1 H2]; subst. cbn [fold_left obind]. pose proof (qlua_step_any y id HG H1) as H.
      destruct (qlua_step y id) as [z|F| |]; try contradiction.
      + destruct H as (Gz & Cz & Kz). specialize (IH z Gz H2).
        destruct (fold_left (fun r id => obind r (fun y => qlua_step y id)) l (Ok z)) as [u|F| |]; try exact IH.
        * destruct IH as (Gu & Cu & Ku). split; [assumption|]. split; [congruence|]. now apply (keeps_all_trans _ (s_file z)).
        * destruct IH as (Tu & Ku). split; [assumption|]. now apply (keeps_all_trans _ (s_file z)).
      + rewrite fold_stuck by discriminate. exact H.
  Qed.

  (** What a command keeps. *)
  Lemma exec_any fuel c x : good x -> spelled c ->
    match exec dot att_max fuel c x with
    | Ok y => good y /\ forall p, obj (s_file x) p <> None -> ~ touches (s_cwd x) c p -> kept (s_file x) (s_file y) p
    | Stop F => tree F /\ forall p, obj (s_file x) p <> None -> ~ touches (s_cwd x) c p -> kept (s_file x) F p
    | _ => True
    end.
  Proof.
    intros HG HS. pose proof HG as (HT & HC & HI).
    assert (TP : forall s, s = ""%string \/ s = "/"%string \/ (exists cs, spells s cs) -> Forall proper (tokens s)).
    { intros s [->|[->|[cs H]]]; [constructor|constructor|]. destruct (spells_tokens _ _ H) as (-> & _ & H2). exact H2. }
    destruct c as [s|s|s| |k s d trunc|k tn t s dims elts trunc|long s a d trunc|s a|s|s ds trunc]; cbn [exec spelled touches] in *.
    - pose proof (push_any dot fuel x s HG (TP s HS)) as H. destruct (push dot fuel s x) as [y| | |]; try exact I; try contradiction.
      destruct H as [Gy W]. split; [assumption|]. intros p Hp _. exact (kept_groups _ _ _ _ W Hp).
    - pose proof (mkdir_any dot fuel x s HG (TP s HS)) as H. destruct (mkdir dot fuel s x) as [y| | |]; try exact I; try contradiction.
      destruct H as [Gy [q W]]. split; [assumption|]. intros p Hp _. exact (kept_groups _ _ _ _ W Hp).
    - pose proof (cd_any fuel s x HG) as H. destruct (cd fuel s x) as [y| | |]; try exact I; try contradiction.
      destruct H as [Gy W]. split; [assumption|]. intros p Hp _. rewrite W. apply kept_refl.
    - destruct (pop_ok x HG) as (y & Ey & Gy & Fy & _). rewrite Ey. split; [assumption|]. intros p Hp _. rewrite Fy. apply kept_refl.
    - destruct HS as [cs HS]. pose proof (spells_denotes (s_cwd x) _ _ HS) as HD.
      pose proof (write_any dot k s d trunc x _ HG HD) as H. destruct (write dot k s d trunc x) as [y|F| |]; try exact I.
      + destruct H as (Gy & Cy & W). split; [assumption|]. intros p Hp Ht. destruct W as [->|W]; [apply kept_refl|].
        apply (kept_object _ _ _ _ _ W). intros ->. contradiction.
      + subst F. split; [assumption|]. intros; apply kept_refl.
    - destruct HS as [Htn [cs HS]]. pose proof (spells_denotes (s_cwd x) _ _ HS) as HD.
      unfold write_typed.
      assert (KC : match commit tn t x with
                   | Ok (_, y) => good y /\ s_cwd y = s_cwd x /\ (forall p, p <> [tn] -> kept (s_file x) (s_file y) p)
                   | Stop F => F = s_file x | _ => False end).
      { unfold commit. destruct (obj (s_file x) [tn]) as [[|d0|t0]|] eqn:HO; try reflexivity.
        - split; [assumption|]. split; [reflexivity|]. intros; apply kept_refl.
        - split.
          + split; [|split; [|exact HI]].
            * apply tree_create; [assumption|discriminate|apply HT|assumption|]. constructor; [assumption|constructor].
            * unfold is_group. cbn [with_file s_file]. rewrite set_obj_other; [exact HC|]. intro E.
              unfold is_group in HC. change (s_cwd x = [tn]) in E. rewrite E in HC. congruence.
          + split; [reflexivity|]. intros p Hp. apply (kept_object _ _ [tn] (Some (NamedType t))); [apply set_obj_spec|assumption]. }
      destruct (commit tn t x) as [[t' y]|F| |]; cbn [obind]; try contradiction.
      + destruct KC as (Gy & Cy & Ky). cbn [fst snd]. rewrite <- Cy in HD.
        pose proof (write_any dot k s (mkData t' dims elts) trunc y _ Gy HD) as H.
        destruct (write dot k s (mkData t' dims elts) trunc y) as [z|F| |]; try exact I.
        * destruct H as (Gz & Cz & W). split; [assumption|]. intros p Hp Ht.
          apply (kept_trans _ (s_file y)); [apply Ky; intros ->; apply Ht; now right|].
          destruct W as [->|W]; [apply kept_refl|]. apply (kept_object _ _ _ _ _ W). intros ->. apply Ht. left. now rewrite <- Cy.
        * subst F. split; [apply Gy|]. intros p Hp Ht. apply Ky. intros ->. apply Ht. now right.
      + subst F. split; [assumption|]. intros; apply kept_refl.
    - destruct HS as [cs HS]. pose proof (spells_denotes (s_cwd x) _ _ HS) as HD.
      pose proof (write_att_any dot att_max long s a d trunc x _ HG HD) as H.
      destruct (write_att dot att_max long s a d trunc x) as [y|F| |]; try exact I.
      + destruct H as (Gy & Cy & v & W). split; [assumption|]. intros p Hp Ht. apply (kept_att _ _ _ _ _ _ W). intros ->. contradiction.
      + destruct H as (Tf & v & W). split; [assumption|]. intros p Hp Ht. apply (kept_att _ _ _ _ _ _ W). intros ->. contradiction.
    - destruct HS as [cs HS]. pose proof (spells_denotes (s_cwd x) _ _ HS) as HD. unfold del_att. split.
      + split; [apply tree_att; [assumption|congruence]|]. split; [exact HC|exact HI].
      + intros p Hp Ht. apply (kept_att _ _ (h5_abs (s_cwd x) s) a None); [apply set_att_spec|]. intros ->. contradiction.
    - destruct HS as [cs HS]. pose proof (spells_denotes (s_cwd x) _ _ HS) as HD. unfold del_atts. split.
      + split; [|split; [exact HC|exact HI]]. destruct HT as (T1 & T2 & T3 & T4). split; [exact T1|]. split; [exact T2|]. split; [exact T3|].
        cbn. intros p a H. destruct (peq p (h5_abs (s_cwd x) s)); [contradiction|]. now apply (T4 p a).
      + intros p Hp Ht. split; [reflexivity|]. intro a. cbn. rewrite peq_false; [reflexivity|]. intros ->. contradiction.
    - destruct HS as [[cs HS] Hds]. pose proof (spells_denotes (s_cwd x) _ _ HS) as HD.
      set (p := h5_abs (s_cwd x) s) in *.
      assert (Hne : p <> []).
      { destruct (denotes_facts _ _ _ HD) as (Hn & _ & Hp & _). rewrite Hp. destruct (leading s), (s_cwd x), (tokens s); cbn; congruence. }
      unfold write_qlua. fold p. rewrite (exists_ok dot _ _ _ _ HT HD).
      assert (HB : forall x0, good x0 ->
        match obind (push dot fuel s x0) (fun x1 =>
          obind (fold_left (fun r id => obind r (fun y => obind (write dot KLattice (digit (fst id)) (snd id) false y) (fun y =>
               write_att dot att_max true (digit (fst id)) ".kind" (data_string kind_name) false y))) (combine (seq 0 (length ds)) ds) (Ok x1)) pop) with
        | Ok y => good y /\ keeps_all (s_file x0) (s_file y)
        | Stop F => tree F /\ keeps_all (s_file x0) F
        | _ => True end).
      { intros x0 G0. pose proof (push_any dot fuel x0 s G0 (TP s (or_intror (or_intror (ex_intro _ cs HS))))) as H.
        destruct (push dot fuel s x0) as [x1| | |]; cbn [obind]; try exact I; try contradiction.
        destruct H as [G1 W1].
        assert (K1 : keeps_all (s_file x0) (s_file x1)) by (intros q Hq; exact (kept_groups _ _ _ _ W1 Hq)).
        assert (HFo : Forall (fun id : nat * data => fst id < 10) (combine (seq 0 (length ds)) ds)).
        { apply Forall_forall. intros [i d] Hin. apply in_combine_l in Hin. apply in_seq in Hin. cbn. lia. }
        pose proof (qlua_loop (combine (seq 0 (length ds)) ds) x1 G1 HFo) as H.
        unfold qlua_step in H at 1.
        destruct (fold_left _ _ (Ok x1)) as [y|F| |]; cbn [obind]; try contradiction.
        - destruct H as (Gy & Cy & Ky). destruct (pop_ok y Gy) as (z & Ez & Gz & Fz & _). rewrite Ez. split; [assumption|].
          rewrite Fz. now apply (keeps_all_trans _ (s_file x1)).
        - destruct H as (Tf & Ky). split; [assumption|]. now apply (keeps_all_trans _ (s_file x1)). }
      destruct (obj (s_file x) p) as [o|] eqn:HO.
      + assert (KS : tree (s_file x) /\ forall q, obj (s_file x) q <> None -> ~ (exists u, denotes (s_cwd x) s u /\ above u q) -> kept (s_file x) (s_file x) q)
          by (split; [assumption|intros; apply kept_refl]).
        destruct trunc; cbn [negb]; [|exact KS]. destruct o as [|d|t]; [|exact KS|exact KS].
        destruct (forallb _ (seq 0 (length ds))); [|exact KS].
        destruct (below p (s_cwd x)) eqn:EB; [exact I|].
        assert (G0 : good (with_file x (del_tree (s_file x) p))).
        { split; [now apply tree_del|]. split; [|exact HI]. unfold is_group. change (s_cwd (with_file x (del_tree (s_file x) p))) with (s_cwd x). cbn [with_file s_file del_tree obj]. rewrite EB. exact HC. }
        specialize (HB _ G0).
        assert (KD : forall F q, keeps_all (del_tree (s_file x) p) F -> obj (s_file x) q <> None -> ~ (exists u, denotes (s_cwd x) s u /\ above u q) -> kept (s_file x) F q).
        { intros F q K Hq Ht. assert (Eb : below p q = false) by (apply below_false; intro A; apply Ht; now exists p).
          assert (K0 : kept (s_file x) (del_tree (s_file x) p) q) by (split; [cbn; now rewrite Eb|intro a; cbn; now rewrite Eb]).
          apply (kept_trans _ _ _ _ K0). apply K. destruct K0 as [E _]. now rewrite E. }
        destruct (obind (push dot fuel s _) _) as [y|F| |]; try exact I.
        * destruct HB as [Gy K]. split; [assumption|]. intros q Hq Ht. now apply KD.
        * destruct HB as [Tf K]. split; [assumption|]. intros q Hq Ht. now apply KD.
      + specialize (HB x HG). destruct (obind (push dot fuel s x) _) as [y|F| |]; try exact I.
        * destruct HB as [Gy K]. split; [assumption|]. intros q Hq _. now apply K.
        * destruct HB as [Tf K]. split; [assumption|]. intros q Hq _. now apply K.
  Qed.

  (** Programs. *)
  Lemma run_any fuel cs x p : good x -> Forall spelled cs -> obj (s_file x) p <> None ->
    untouched (exec dot att_max fuel) cs x p ->
    match run dot att_max fuel cs x with
    | Ok y => good y /\ kept (s_file x) (s_file y) p
    | Stop F => tree F /\ kept (s_file x) F p
    | _ => True
    end.
  Proof.
    revert x. induction cs as [|c cs IH]; intros x HG HF Hp HU.
    - cbn. split; [assumption|apply kept_refl].
    - inversion HF as [|? ? H1 H2]; subst. cbn [run]. pose proof (exec_any fuel c x HG H1) as H.
      assert (Ht : ~ touches (s_cwd x) c p) by (apply (HU [] c cs x); reflexivity).
      destruct (exec dot att_max fuel c x) as [y|F| |] eqn:E; cbn [obind]; try exact I.
      + destruct H as [Gy K]. specialize (K p Hp Ht).
        assert (Hp' : obj (s_file y) p <> None) by (destruct K as [K _]; now rewrite K).
        assert (HU' : untouched (exec dot att_max fuel) cs y p).
        { intros cs1 c' cs2 z -> Hz. apply (HU (c :: cs1) c' cs2 z); [reflexivity|]. cbn [fold_left]. now rewrite E. }
        specialize (IH y Gy H2 Hp' HU'). destruct (run dot att_max fuel cs y) as [z|F| |]; try exact I.
        * destruct IH as [Gz K2]. split; [assumption|]. now apply (kept_trans _ (s_file y)).
        * destruct IH as [Tz K2]. split; [assumption|]. now apply (kept_trans _ (s_file y)).
      + destruct H as [T K]. split; [assumption|]. now apply K.
  Qed.

  (** What a command keeps of the attributes. *)
  Lemma exec_att fuel c x p a : good x -> spelled c -> att (s_file x) p a <> None -> ~ touches_att (s_cwd x) c p a ->
    match exec dot att_max fuel c x with
    | Ok y => good y /\ att (s_file y) p a = att (s_file x) p a
    | Stop F => att F p a = att (s_file x) p a
    | _ => True
    end.
  Proof.
    intros HG HS HA HT. pose proof (exec_any fuel c x HG HS) as H.
    assert (HO : obj (s_file x) p <> None) by (destruct HG as ((_ & _ & _ & T4) & _); exact (T4 p a HA)).
    assert (K : ~ touches (s_cwd x) c p -> match exec dot att_max fuel c x with
      | Ok y => good y /\ att (s_file y) p a = att (s_file x) p a | Stop F => att F p a = att (s_file x) p a | _ => True end).
    { intro HT'. destruct (exec dot att_max fuel c x) as [y|F| |]; try exact I.
      - destruct H as [Gy K]. split; [assumption|]. exact (proj2 (K p HO HT') a).
      - destruct H as [Ty K]. exact (proj2 (K p HO HT') a). }
    destruct c as [s|s|s| |k s d trunc|k tn t s dims elts trunc|long s b d trunc|s b|s|s ds trunc]; try (apply K; exact HT); clear K.
    - destruct HS as [cs HS]. pose proof (spells_denotes (s_cwd x) _ _ HS) as HD.
      assert (Hne : forall F v, with_att (s_file x) F (h5_abs (s_cwd x) s) b v -> att F p a = att (s_file x) p a).
      { intros F v (_ & _ & W). apply W. intro E. injection E as -> ->. apply HT. now split. }
      cbn [exec] in *. pose proof (write_att_any dot att_max long s b d trunc x _ HG HD) as H'.
      destruct (write_att dot att_max long s b d trunc x) as [y|F| |]; try exact I.
      + destruct H' as (Gy & Cy & v & W). split; [assumption|]. exact (Hne _ _ W).
      + destruct H' as (_ & v & W). exact (Hne _ _ W).
    - destruct HS as [cs HS]. pose proof (spells_denotes (s_cwd x) _ _ HS) as HD. cbn [exec] in *. unfold del_att in *.
      split; [apply H|]. destruct (set_att_spec (s_file x) (h5_abs (s_cwd x) s) b None) as (_ & _ & W). apply W.
      intro E. injection E as -> ->. apply HT. now split.
  Qed.
  Lemma run_att fuel cs x p a : good x -> Forall spelled cs -> att (s_file x) p a <> None ->
    untouched_att (exec dot att_max fuel) cs x p a ->
    match run dot att_max fuel cs x with
    | Ok y => good y /\ att (s_file y) p a = att (s_file x) p a
    | Stop F => att F p a = att (s_file x) p a
    | _ => True
    end.
  Proof.
    revert x. induction cs as [|c cs IH]; intros x HG HF HA HU.
    - cbn. now split.
    - inversion HF as [|? ? H1 H2]; subst. cbn [run].
      assert (Ht : ~ touches_att (s_cwd x) c p a) by (apply (HU [] c cs x); reflexivity).
      pose proof (exec_att fuel c x p a HG H1 HA Ht) as H.
      destruct (exec dot att_max fuel c x) as [y|F| |] eqn:E; cbn [obind]; try exact I; [|exact H].
      destruct H as [Gy K].
      assert (HA' : att (s_file y) p a <> None) by now rewrite K.
      assert (HU' : untouched_att (exec dot att_max fuel) cs y p a).
      { intros cs1 c' cs2 z -> Hz. apply (HU (c :: cs1) c' cs2 z); [reflexivity|]. cbn [fold_left]. now rewrite E. }
      specialize (IH y Gy H2 HA' HU'). rewrite <- K. destruct (run dot att_max fuel cs y) as [z|F| |]; exact IH.
  Qed.
End P.

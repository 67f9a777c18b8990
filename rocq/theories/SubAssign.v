(** The assignments, and the theorem about whole programs. *)
From Coq Require Import List Arith Bool Lia.
From Verif Require Import Base SubModel SubSpec SubProofs SubSim SubStep.
Import ListNotations.
Local Open Scope nat_scope.

Section Assign.
  Context {T : Type}.
  Variable V : nat.
  Notation heap := (heap T).
  Implicit Types h : heap.
  Implicit Types c : st T.
  Implicit Types a : vars T.
  Implicit Types f g : field T.
  Notation both := (both V).

  Lemma mem_of_In i ss : mem_of i ss = true <-> In i ss.
  Proof.
    unfold mem_of. rewrite existsb_exists. split.
    - intros (x & H & E). apply Nat.eqb_eq in E. subst. auto.
    - intros H. exists i. split; auto. apply Nat.eqb_refl.
  Qed.

  Lemma mem_of_nth ss j i : nth_error ss j = Some i -> mem_of i ss = true.
  Proof. intros H. apply mem_of_In. eapply nth_error_In; eauto. Qed.

  Lemma load_changed h b l h' l' b' i :
    changed h b l h' l' -> (b' = b -> nth_error l' i = nth_error l i) ->
    load h' b' i = load h b' i.
  Proof.
    intros (A1 & A2 & A3 & A4 & A5) H. unfold load.
    destruct (Nat.eq_dec b' b) as [->|Hne].
    - rewrite A1, A2, H; auto.
    - rewrite A4; auto.
  Qed.

  Lemma peek_changed h b l h' l' (lats : list (option nat)) i :
    changed h b l h' l' -> (In (Some b) lats -> nth_error l' i = nth_error l i) ->
    peek h' lats i = peek h lats i.
  Proof.
    intros C H. unfold peek. apply map_ext_in. intros [b'|] Hin; auto.
    rewrite (load_changed h b l h' l' b' i C); auto. intros ->. auto.
  Qed.

  Lemma compute_no_abort (u : assignment T) v o : compute u v o <> Abort.
  Proof. unfold compute. destruct (u v o); discriminate. Qed.

  Lemma all_or_missing (g : field T) ss :
    forallb (fun i => match g i with Some _ => true | None => false end) ss = true /\
      (forall i, In i ss -> exists v, g i = Some v) \/
    forallb (fun i => match g i with Some _ => true | None => false end) ss = false /\
      exists j, j < length ss /\ g (tab ss j) = None.
  Proof.
    destruct (forallb _ ss) eqn:E.
    - left. split; auto. intros i Hi. rewrite forallb_forall in E. specialize (E i Hi).
      destruct (g i); [eauto|discriminate].
    - right. split; auto. induction ss as [|i ss IH]; [discriminate|]. cbn in E.
      destruct (g i) as [v|] eqn:Eg.
      + destruct (IH E) as (j & Hj & Hg). exists (S j). split; [simpl; lia|exact Hg].
      + exists 0. split; [simpl; lia|exact Eg].
  Qed.

  Lemma assign_ok c a k u : inv V c a -> both (step V c (Assign k u)) (means a (Assign k u)).
  Proof.
    intros I. cbn [step means]. pose proof (obj_sim V c a k I) as H.
    destruct (the_obj c k) as [s| |], (a_sub a k) as [x| |]; try contradiction; cbn [bind SubStep.both]; auto.
    destruct H as (H1 & H2 & H3 & Ht). destruct x as [|l ss|ss f]; cbn in H3.
    - subst s. cbn. exact Logic.I.
    - destruct H3 as (b & -> & R). unfold assign_expr. cbn [view owns pS pF deref of_option bind].
      destruct ss as [|i0 ss0].
      { cbn. destruct c. exact I. }
      set (ss := i0 :: ss0) in *. destruct Ht as [Nd Lt]. cbn [ss_of] in Nd, Lt.
      pose proof (lat_sim V c a l I) as HL.
      destruct R as [R|(R1 & R2 & R3)].
      + unfold the_lat in HL. rewrite R in HL. destruct (a_lat a l) as [f| |]; try contradiction.
        destruct HL as (_ & HL2 & x & Hx & Hlen & Hval). cbn [bind]. unfold evaluate_on, assigned.
        set (g := fun i => u (seen a i) (f i)).
        set (val := fun h j => bind (load h b (tab ss j)) (fun old =>
                               compute u (peek h (lat c) (tab ss j)) old)).
        set (body := fun h j => let i := tab ss j in bind (load h b i) (fun old =>
                      bind (compute u (peek h (lat c) i) old) (store h b i))).
        assert (Hbody : forall h j, body h j = bind (val h j) (store h b (tab ss j))).
        { intros h j. unfold body, val. destruct (load h b (tab ss j)); reflexivity. }
        assert (Hin : forall j, In j (seq 0 (length ss)) -> tab ss j < V).
        { intros j Hj. apply in_seq in Hj. apply Lt. eapply nth_error_In. apply tab_lt. lia. }
        assert (Hv : forall j, In j (seq 0 (length ss)) ->
                       val (mem c) j = match g (tab ss j) with Some v => Val (Some v) | None => Undef end).
        { intros j Hj. unfold val, load. rewrite Hx, (Hval _ (Hin j Hj)). cbn [of_option bind].
          unfold compute. rewrite (peek_seen V c a _ I (Hin j Hj)). reflexivity. }
        assert (Hs : stable b (tab ss) val (mem c) x (seq 0 (length ss))).
        { intros h' l' j Hj C E. unfold val.
          rewrite (load_changed _ _ _ _ _ _ _ C); [|auto].
          rewrite (peek_changed _ _ _ _ _ _ _ C); auto. }
        assert (Hd : NoDup (map (tab ss) (seq 0 (length ss)))) by (rewrite map_tab; auto).
        assert (Hl : forall j, In j (seq 0 (length ss)) -> tab ss j < length x)
          by (intros j Hj; rewrite Hlen; apply Hin; auto).
        change (both (bind (loop (seq 0 (length ss)) body (mem c)) (fun h => Val (with_mem c h)))
                     (bind (if forallb (fun i => match g i with Some _ => true | None => false end) ss
                            then Val (overlay ss g f) else Undef)
                           (fun f' => Val (set_lat a l (Some f'))))).
        destruct (all_or_missing g ss) as [(E & A)|(E & j & Hj & A)]; rewrite E.
        * destruct (loop_ok b (tab ss) val body Hbody _ _ _ Hx Hd Hl Hs) as (h' & l' & E' & C & P & Q).
          { intros j Hj. rewrite (Hv j Hj). destruct (A (tab ss j)) as [v ->]; eauto.
            eapply nth_error_In. apply tab_lt. apply in_seq in Hj. lia. }
          rewrite E'. cbn [bind SubStep.both]. eapply inv_write_lattice; eauto.
          intros p Hp. unfold overlay. destruct (mem_of p ss) eqn:Em.
          { apply mem_of_In in Em. destruct (In_nth_error _ _ Em) as [j Hj].
            assert (Hjl : In j (seq 0 (length ss))).
            { apply in_seq. assert (j < length ss) by (apply nth_error_Some; congruence). lia. }
            destruct (A p Em) as [v Hg].
            pose proof (tab_nth _ _ _ Hj) as Htab. rewrite <- Htab in *.
            rewrite Hg. apply (P j (Some v) Hjl). rewrite (Hv j Hjl), Hg. reflexivity. }
          { rewrite Q; [apply Hval; auto|]. rewrite map_tab. intros Hn. apply mem_of_In in Hn. congruence. }
        * rewrite (loop_undef b (tab ss) val body Hbody _ _ _ Hx Hd Hl Hs).
          { exact Logic.I. }
          { intros j' Hj'. rewrite (Hv j' Hj'). destruct (g (tab ss j')); discriminate. }
          { exists j. assert (Hjl : In j (seq 0 (length ss))) by (apply in_seq; lia).
            split; auto. rewrite (Hv j Hjl), A. reflexivity. }
      + unfold the_lat in HL. rewrite R1 in HL. destruct (a_lat a l) as [f| |]; try contradiction.
        unfold evaluate_on, ss. cbn. unfold load. rewrite R2. cbn. exact Logic.I.
    - destruct H3 as (b & x & -> & Hx & Hlen & Hval).
      unfold assign_expr. cbn [owns pS pF deref of_option bind]. unfold evaluate_F, assigned.
      destruct Ht as [Nd Lt]. cbn [ss_of] in Nd, Lt.
      assert (Nb : ~ In (Some b) (lat c)).
      { intros Hn. destruct (In_nth_error _ _ Hn) as [i Hi].
        assert (O : owner c b (inr k)) by (cbn; eexists; split; [exact H1|auto]).
        pose proof (i_uniq _ _ _ I b (inl i) (inr k) Hi O). discriminate. }
      set (g := fun i => u (seen a i) (f i)).
      set (val := fun h j => bind (load h b j) (fun old =>
                             compute u (peek h (lat c) (tab ss j)) old)).
      set (body := fun h j => let i := tab ss j in bind (load h b j) (fun old =>
                    bind (compute u (peek h (lat c) i) old) (store h b j))).
      assert (Hbody : forall h j, body h j = bind (val h j) (store h b j)).
      { intros h j. unfold body, val. destruct (load h b j); reflexivity. }
      assert (Hin : forall j, In j (seq 0 (length ss)) -> tab ss j < V).
      { intros j Hj. apply in_seq in Hj. apply Lt. eapply nth_error_In. apply tab_lt. lia. }
      assert (Hv : forall j, In j (seq 0 (length ss)) ->
                     val (mem c) j = match g (tab ss j) with Some v => Val (Some v) | None => Undef end).
      { intros j Hj. unfold val, load. rewrite Hx, (Hval j (tab ss j)).
        2: { apply tab_lt. apply in_seq in Hj. lia. }
        cbn [of_option bind]. unfold compute. rewrite (peek_seen V c a _ I (Hin j Hj)). reflexivity. }
      assert (Hs : stable b (fun j => j) val (mem c) x (seq 0 (length ss))).
      { intros h' l' j Hj C E. unfold val.
        rewrite (load_changed _ _ _ _ _ _ _ C); [|auto].
        rewrite (peek_changed _ _ _ _ _ _ _ C); auto. intros Hn. contradiction. }
      assert (Hd : NoDup (map (fun j : nat => j) (seq 0 (length ss)))) by (rewrite map_id; apply seq_NoDup).
      assert (Hl : forall j, In j (seq 0 (length ss)) -> j < length x)
        by (intros j Hj; rewrite Hlen; apply in_seq in Hj; lia).
      change (both (bind (loop (seq 0 (length ss)) body (mem c)) (fun h => Val (with_mem c h)))
                   (bind (if forallb (fun i => match g i with Some _ => true | None => false end) ss
                          then Val (overlay ss g f) else Undef)
                         (fun f' => Val (set_sub a k (Some (Own ss f')))))).
      destruct (all_or_missing g ss) as [(E & A)|(E & j & Hj & A)]; rewrite E.
      + destruct (loop_ok b (fun j => j) val body Hbody _ _ _ Hx Hd Hl Hs) as (h' & l' & E' & C & P & Q).
        { intros j Hj. rewrite (Hv j Hj). destruct (A (tab ss j)) as [v ->]; eauto.
          eapply nth_error_In. apply tab_lt. apply in_seq in Hj. lia. }
        rewrite E'. cbn [bind SubStep.both]. eapply inv_write_sub; eauto.
        intros j i Hj. unfold overlay. rewrite (mem_of_nth _ _ _ Hj).
        assert (Hjl : In j (seq 0 (length ss))).
        { apply in_seq. assert (j < length ss) by (apply nth_error_Some; congruence). lia. }
        destruct (A i) as [v Hg]; [eapply nth_error_In; eauto|].
        rewrite Hg. apply (P j (Some v) Hjl). rewrite (Hv j Hjl), (tab_nth _ _ _ Hj), Hg. reflexivity.
      + rewrite (loop_undef b (fun j => j) val body Hbody _ _ _ Hx Hd Hl Hs).
        { exact Logic.I. }
        { intros j' Hj'. rewrite (Hv j' Hj'). destruct (g (tab ss j')); discriminate. }
        { exists j. assert (Hjl : In j (seq 0 (length ss))) by (apply in_seq; lia).
          split; auto. rewrite (Hv j Hjl), A. reflexivity. }
  Qed.

  (** ** Sub-lattice = sub-lattice *)

  Lemma by_position_out ss rs g : forall f x, ~ In x ss -> by_position ss rs g f x = f x.
  Proof.
    revert rs. unfold by_position. induction ss as [|i ss IH]; intros [|r rs] f x H; simpl; auto.
    rewrite IH.
    - destruct (Nat.eqb_spec x i) as [->|]; auto. exfalso. apply H. left. auto.
    - intros Hn. apply H. right. auto.
  Qed.

  Lemma by_position_in ss rs g : NoDup ss -> forall f j i r,
    nth_error ss j = Some i -> nth_error rs j = Some r -> by_position ss rs g f i = g r.
  Proof.
    revert rs. induction ss as [|i0 ss IH]; intros [|r0 rs] N f [|j] i r Hi Hr; simpl in *; try discriminate;
      inversion N as [|? ? N1 N2]; subst.
    - injection Hi as <-. injection Hr as <-.
      unfold by_position. cbn [combine fold_left].
      change (by_position ss rs g (fun x => if x =? i0 then g r0 else f x) i0 = g r0).
      rewrite by_position_out; auto. rewrite Nat.eqb_refl. auto.
    - unfold by_position. cbn [combine fold_left].
      change (by_position ss rs g (fun x => if x =? i0 then g r0 else f x) i = g r).
      eapply IH; eauto.
  Qed.

  Lemma assign_sub_ok c a k r : inv V c a -> both (step V c (AssignSub k r)) (means a (AssignSub k r)).
  Proof.
    intros I. cbn [step means]. pose proof (obj_sim V c a k I) as H. pose proof (obj_sim V c a r I) as H'.
    destruct (the_obj c k) as [s| |], (a_sub a k) as [x| |]; try contradiction; cbn [bind SubStep.both]; auto.
    destruct (the_obj c r) as [s'| |], (a_sub a r) as [x'| |]; try contradiction; cbn [bind SubStep.both]; auto.
    destruct H as (H1 & H2 & H3 & Ht), H' as (G1 & G2 & G3 & Gt).
    unfold assign_sub.
    destruct x as [|l ss|ss f]; cbn in H3.
    - subst s. cbn. exact Logic.I.
    - destruct H3 as (b & -> & _). cbn. exact Logic.I.
    - destruct H3 as (b & y & -> & Hy & Hlen & Hval). cbn [owns andb].
      destruct x' as [|l rs|rs g]; cbn in G3.
      + subst s'. cbn. exact Logic.I.
      + destruct G3 as (b' & -> & _). cbn. exact Logic.I.
      + destruct G3 as (b' & y' & -> & Gy & Glen & Gval). cbn [owns pS pF deref of_option bind].
        destruct (Nat.eqb_spec (length ss) (length rs)) as [El|]; [|cbn; exact Logic.I].
        cbn [negb]. destruct Ht as [Nd Lt]. cbn [ss_of] in Nd, Lt.
        set (val := fun h j => load h b' j).
        assert (Hv : forall j, In j (seq 0 (length ss)) -> val (mem c) j = Val (g (tab rs j))).
        { intros j Hj. unfold val, load. rewrite Gy, (Gval j (tab rs j)); auto.
          apply tab_lt. apply in_seq in Hj. lia. }
        assert (Hs : stable b (fun j => j) val (mem c) y (seq 0 (length ss))).
        { intros h' l' j Hj C E. unfold val. apply (load_changed _ _ _ _ _ _ _ C). auto. }
        assert (Hd : NoDup (map (fun j : nat => j) (seq 0 (length ss)))) by (rewrite map_id; apply seq_NoDup).
        assert (Hl : forall j, In j (seq 0 (length ss)) -> j < length y)
          by (intros j Hj; rewrite Hlen; apply in_seq in Hj; lia).
        destruct (loop_ok b (fun j => j) val (fun h j => bind (load h b' j) (store h b j))
                    (fun _ _ => eq_refl) _ _ _ Hy Hd Hl Hs) as (h' & l' & E' & C & P & Q).
        { intros j Hj. rewrite (Hv j Hj). eauto. }
        rewrite E'. cbn [bind SubStep.both]. eapply inv_write_sub; eauto.
        intros j i Hj. assert (Hj' : j < length ss) by (apply nth_error_Some; congruence).
        assert (Hjl : In j (seq 0 (length ss))) by (apply in_seq; lia).
        rewrite (by_position_in ss rs g Nd f j i (tab rs j) Hj) by (apply tab_lt; lia).
        apply (P j _ Hjl). apply Hv. auto.
  Qed.

  (** ** Lattice = sub-lattice *)

  Lemma assign_lattice_ok c a l k :
    inv V c a -> both (step V c (AssignLattice l k)) (means a (AssignLattice l k)).
  Proof.
    intros I. cbn [step means]. pose proof (lat_sim V c a l I) as H. pose proof (obj_sim V c a k I) as H'.
    destruct (the_lat c l) as [b| |], (a_lat a l) as [f| |]; try contradiction; cbn [bind SubStep.both]; auto.
    destruct (the_obj c k) as [s| |], (a_sub a k) as [x| |]; try contradiction; cbn [bind SubStep.both]; auto.
    destruct H as (H1 & H2 & y & Hy & Hlen & Hval), H' as (G1 & G2 & G3 & Gt).
    unfold lat_assign.
    destruct x as [|l' ss|ss g]; cbn in G3.
    - subst s. cbn. exact Logic.I.
    - destruct G3 as (b' & -> & _). cbn. exact Logic.I.
    - destruct G3 as (b' & y' & -> & Gy & Glen & Gval). cbn [owns negb pS pF deref of_option bind].
      destruct Gt as [Nd Lt]. cbn [ss_of] in Nd, Lt.
      assert (Nb : b' <> b).
      { intros ->. assert (O : owner c b (inr k)) by (cbn; eexists; split; [exact G1|auto]).
        pose proof (i_uniq _ _ _ I b (inl l) (inr k) H1 O). discriminate. }
      set (val := fun h j => load h b' j).
      assert (Hv : forall j, In j (seq 0 (length ss)) -> val (mem c) j = Val (g (tab ss j))).
      { intros j Hj. unfold val, load. rewrite Gy, (Gval j (tab ss j)); auto.
        apply tab_lt. apply in_seq in Hj. lia. }
      assert (Hs : stable b (tab ss) val (mem c) y (seq 0 (length ss))).
      { intros h' l2 j Hj C E. unfold val. apply (load_changed _ _ _ _ _ _ _ C). congruence. }
      assert (Hd : NoDup (map (tab ss) (seq 0 (length ss)))) by (rewrite map_tab; auto).
      assert (Hl : forall j, In j (seq 0 (length ss)) -> tab ss j < length y).
      { intros j Hj. rewrite Hlen. apply in_seq in Hj. apply Lt. eapply nth_error_In. apply tab_lt. lia. }
      destruct (loop_ok b (tab ss) val (fun h j => bind (load h b' j) (store h b (tab ss j)))
                  (fun _ _ => eq_refl) _ _ _ Hy Hd Hl Hs) as (h' & l2 & E' & C & P & Q).
      { intros j Hj. rewrite (Hv j Hj). eauto. }
      rewrite E'. cbn [bind SubStep.both]. eapply inv_write_lattice; eauto.
      intros p Hp. unfold overlay. destruct (mem_of p ss) eqn:Em.
      + apply mem_of_In in Em. destruct (In_nth_error _ _ Em) as [j Hj].
        assert (Hjl : In j (seq 0 (length ss))).
        { apply in_seq. assert (j < length ss) by (apply nth_error_Some; congruence). lia. }
        rewrite <- (tab_nth _ _ _ Hj). apply (P j _ Hjl). apply Hv. auto.
      + rewrite Q; [apply Hval; auto|]. rewrite map_tab. intros Hn. apply mem_of_In in Hn. congruence.
  Qed.

  (** ** Products *)

  Lemma product_ok c a k (f : T -> T -> T) l : inv V c a ->
    both (step V c (LocalProduct k f l)) (means a (LocalProduct k f l)).
  Proof.
    intros I. cbn [step means]. pose proof (lat_sim V c a l I) as H. pose proof (obj_sim V c a k I) as H'.
    destruct (the_obj c k) as [s| |], (a_sub a k) as [x| |]; try contradiction; cbn [bind SubStep.both]; auto.
    destruct (the_lat c l) as [r| |], (a_lat a l) as [g| |]; try contradiction; cbn [bind SubStep.both]; auto.
    destruct H as (H1 & H2 & y & Hy & Hlen & Hval), H' as (G1 & G2 & G3 & Gt).
    unfold local_product.
    destruct x as [|l' ss|ss g']; cbn in G3.
    - subst s. cbn. exact Logic.I.
    - destruct G3 as (b' & -> & _). cbn. exact Logic.I.
    - destruct G3 as (b & y' & -> & Gy & Glen & Gval). cbn [owns negb pS pF deref of_option bind].
      cbn [ss_of] in Gt. unfold setSubset. cbn [default_sub pF owns bind].
      set (p := fun i => match g' i, g i with Some x, Some y => Some (f x y) | _, _ => None end).
      lazymatch goal with
      | |- SubStep.both _ ?x _ =>
          change (both x (if forallb (fun i => match p i with Some _ => true | None => false end) ss
                          then Val (add_sub a (Own ss p)) else Undef))
      end.
      set (val := fun h j => bind (load h b j) (fun x => bind (load h r (tab ss j)) (fun y =>
                    match x, y with Some x, Some y => Val (Some (f x y)) | _, _ => Undef end))).
      pose proof (fill_fresh (mem c) (length ss)
        (fun h j => let i := tab ss j in bind (load h b j) (fun x => bind (load h r i) (fun y =>
           match x, y with
           | Some x, Some y => store h (snd (alloc (mem c) (length ss))) j (Some (f x y))
           | _, _ => Undef end))) val) as FF.
      pose proof (alloc_spec (mem c) (length ss)) as A.
      destruct (alloc (mem c) (length ss)) as [h1 nb] eqn:EA. cbn [snd] in FF.
      destruct A as (Hb & F & E & K). cbn [bind pF deref of_option].
      assert (Hnb : b <> nb).
      { intros ->. assert (nb < fresh (mem c)) by (apply (i_fresh _ _ _ I); congruence). lia. }
      assert (Hnr : r <> nb).
      { intros ->. assert (nb < fresh (mem c)) by (apply (i_fresh _ _ _ I); congruence). lia. }
      assert (Hv : forall j, j < length ss ->
                     val h1 j = match p (tab ss j) with Some v => Val (Some v) | None => Undef end).
      { intros j Hj. unfold val, load. rewrite !K, Hy, Gy by auto.
        rewrite (Gval j (tab ss j)) by (apply tab_lt; auto). cbn [of_option bind].
        rewrite Hval by (apply Gt; eapply nth_error_In; apply tab_lt; auto). cbn [of_option bind].
        unfold p. destruct (g' (tab ss j)), (g (tab ss j)); reflexivity. }
      destruct FF as [((j & Hj & Hu) & EU)|(h2 & l2 & E2 & B2 & L2 & F2 & K2 & P2)].
      + intros h j. unfold val. destruct (load h b j) as [[x|]| |]; cbn [bind]; auto;
          destruct (load h r (tab ss j)) as [[z|]| |]; reflexivity.
      + intros h' j Hk Hj. unfold val, load. rewrite !Hk, !K; auto.
      + intros j Hj. rewrite Hv; auto. destruct (p (tab ss j)); discriminate.
      + rewrite EU. cbn [bind]. rewrite Hv in Hu by auto.
        destruct (all_or_missing p ss) as [(E' & A)|(E' & _)]; rewrite E'.
        * destruct (A (tab ss j)) as [v Hp]; [eapply nth_error_In; apply tab_lt; auto|].
          rewrite Hp in Hu. discriminate.
        * exact Logic.I.
      + rewrite E2. cbn [bind].
        destruct (all_or_missing p ss) as [(E' & A)|(E' & j & Hj & A)]; rewrite E'.
        * cbn [SubStep.both]. eapply inv_new_owner; eauto.
          intros j i Hji. assert (Hj : j < length ss) by (apply nth_error_Some; congruence).
          destruct (P2 j Hj) as (z & Hz & Hn). rewrite Hv in Hz by auto.
          rewrite (tab_nth _ _ _ Hji) in Hz. rewrite Hn.
          destruct (A i) as [v Hp]; [eapply nth_error_In; eauto|]. rewrite Hp in Hz. congruence.
        * exfalso. destruct (P2 j Hj) as (z & Hz & Hn). rewrite Hv, A in Hz by auto. discriminate.
  Qed.

  (** ** Programs *)

  Lemma step_ok c a o : inv V c a -> tables V o -> both (step V c o) (means a o).
  Proof.
    intros I Ht. destruct o.
    - apply new_lattice_ok; auto.
    - apply drop_lattice_ok; auto.
    - apply declare_ok; auto.
    - apply view_ok; auto.
    - apply gather_ok; auto.
    - apply copy_ok; auto.
    - apply set_subset_ok; auto.
    - apply drop_ok; auto.
    - apply assign_ok; auto.
    - apply assign_sub_ok; auto.
    - apply assign_lattice_ok; auto.
    - apply product_ok; auto.
  Qed.

  Lemma inv_init : inv V (@init T) start.
  Proof.
    constructor; cbn; auto.
    - split; constructor.
    - intros b [i|k] w'; cbn.
      + destruct i; discriminate.
      + intros (s & H & _). destruct k; discriminate.
    - intros b H. congruence.
    - intros b H. congruence.
    - intros [|k] x; discriminate.
  Qed.

  Lemma run_ok ops : forall c a, inv V c a -> Forall (tables V) ops ->
    both (run V c ops) (meaning a ops).
  Proof.
    induction ops as [|o ops IH]; intros c a I H; cbn [run meaning]; auto.
    inversion H as [|? ? H1 H2]; subst. pose proof (step_ok c a o I H1) as S.
    unfold SubStep.both in S.
    destruct (step V c o) as [c'| |], (means a o) as [a'| |]; try contradiction; cbn [bind]; auto.
  Qed.

  (** ** No leaks *)

  Lemma NoDup_flat_map {A} (g : A -> list nat) (l : list A) :
    (forall x, In x l -> NoDup (g x)) ->
    (forall i j x y b, nth_error l i = Some x -> nth_error l j = Some y ->
       In b (g x) -> In b (g y) -> i = j) ->
    NoDup (flat_map g l).
  Proof.
    induction l as [|x l IH]; intros H1 H2; cbn; [constructor|].
    assert (H3 : NoDup (flat_map g l)).
    { apply IH; [intros y Hy; apply H1; right; auto|].
      intros i j y z b Hi Hj By Bz. pose proof (H2 (S i) (S j) y z b Hi Hj By Bz). lia. }
    assert (H4 : forall b, In b (g x) -> ~ In b (flat_map g l)).
    { intros b Bx Hb. apply in_flat_map in Hb. destruct Hb as (y & Hy & By).
      destruct (In_nth_error _ _ Hy) as [j Hj].
      pose proof (H2 0 (S j) x y b eq_refl Hj Bx By). discriminate. }
    assert (Hx : NoDup (g x)) by (apply H1; left; auto). clear - H3 H4 Hx.
    induction (g x) as [|b m IHm]; cbn; auto. inversion Hx; subst. constructor.
    - intros Hn. apply in_app_or in Hn. destruct Hn; [contradiction|]. apply (H4 b); [left|]; auto.
    - apply IHm; auto. intros b' Hb'. apply H4. right. auto.
  Qed.

  Lemma in_sub_block o b :
    In b (sub_block o) <-> exists s, o = Some s /\ owns s = true /\ pF s = Some b.
  Proof.
    destruct o as [s|]; cbn.
    - destruct (owns s) eqn:W.
      + destruct (pF s) as [b'|] eqn:P; cbn.
        * split; [intros [->|[]]; eauto|]. intros (s' & E & _ & P'). injection E as <-. left. congruence.
        * split; [intros []|]. intros (s' & E & _ & P'). injection E as <-. congruence.
      + split; [intros []|]. intros (s' & E & W' & _). injection E as <-. congruence.
    - split; [intros []|]. intros (s' & E & _). discriminate.
  Qed.
  Lemma in_lattice_block o b : In b (lattice_block o) <-> o = Some b.
  Proof. destruct o; cbn; split; [intros [->|[]]|injection 1| |]; auto; try discriminate; intros []. Qed.

  Lemma in_owned c b : In b (owned c) <-> exists w, owner c b w.
  Proof.
    unfold owned. rewrite in_app_iff, !in_flat_map. split.
    - intros [(o & Ho & Hb)|(o & Ho & Hb)]; destruct (In_nth_error _ _ Ho) as [i Hi].
      + apply in_lattice_block in Hb. subst o. exists (inl i). exact Hi.
      + apply in_sub_block in Hb. destruct Hb as (s & -> & R). exists (inr i). exists s. auto.
    - intros [[i|k] O].
      + left. exists (Some b). split; [eapply nth_error_In; exact O|apply in_lattice_block; auto].
      + right. destruct O as (s & O & R). exists (Some s).
        split; [eapply nth_error_In; exact O|]. apply in_sub_block. eauto.
  Qed.

  Lemma NoDup_app_disjoint (l m : list nat) :
    NoDup l -> NoDup m -> (forall b, In b l -> ~ In b m) -> NoDup (l ++ m).
  Proof.
    induction l as [|x l IH]; cbn; intros Hl Hm Hd; auto. inversion Hl; subst. constructor.
    - rewrite in_app_iff. intros [H|H]; [contradiction|]. apply (Hd x); [left|]; auto.
    - apply IH; auto.
  Qed.

  Lemma inv_no_leak c a : inv V c a -> no_leak c.
  Proof.
    intros I. split.
    - unfold owned. apply NoDup_app_disjoint.
      + apply NoDup_flat_map.
        * intros [b|] _; cbn; repeat constructor. intros [].
        * intros i j x y b Hi Hj Hx Hy. apply in_lattice_block in Hx, Hy. subst.
          pose proof (i_uniq _ _ _ I b (inl i) (inl j) Hi Hj). congruence.
      + apply NoDup_flat_map.
        * intros [s|] _; cbn; [|constructor]. destruct (owns s); [|constructor].
          destruct (pF s); cbn; repeat constructor. intros [].
        * intros i j x y b Hi Hj Hx Hy. apply in_sub_block in Hx, Hy.
          destruct Hx as (s & -> & Rs), Hy as (s' & -> & Rs').
          pose proof (i_uniq _ _ _ I b (inr i) (inr j)) as U. cbn in U.
          assert (E : @inr nat nat i = inr j) by (apply U; eauto). congruence.
      + intros b H1 H2. apply in_flat_map in H1, H2. destruct H1 as (o & Ho & Hb), H2 as (o' & Ho' & Hb').
        apply in_lattice_block in Hb. subst o. apply in_sub_block in Hb'. destruct Hb' as (s & -> & R).
        destruct (In_nth_error _ _ Ho) as [i Hi], (In_nth_error _ _ Ho') as [j Hj].
        pose proof (i_uniq _ _ _ I b (inl i) (inr j) Hi) as U. cbn in U.
        assert (E : @inl nat nat i = inr j) by (apply U; eauto). discriminate.
    - intros b. rewrite in_owned. split.
      + apply (i_live _ _ _ I).
      + intros [w O]. destruct (owner_live V c a b w I O) as [l ->]. discriminate.
  Qed.
End Assign.

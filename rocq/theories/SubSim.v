(** One statement of a program with sub-lattices: memory and meaning move together. *)
From Coq Require Import List Arith Bool Lia.
From Verif Require Import Base SubModel SubSpec SubProofs.
Import ListNotations.
Local Open Scope nat_scope.

Section Sim.
  Context {T : Type}.
  Variable V : nat.
  Notation heap := (heap T).
  Implicit Types h : heap.
  Implicit Types c : st T.
  Implicit Types a : vars T.

  (** ** Who owns a block *)

  Definition owner c (b : nat) (w : nat + nat) : Prop :=
    match w with
    | inl i => nth_error (lat c) i = Some (Some b)
    | inr k => exists s, nth_error (obj c) k = Some (Some s) /\ owns s = true /\ pF s = Some b
    end.

  Definition ss_of (x : var T) : list nat :=
    match x with Empty => [] | Alias _ ss => ss | Own ss _ => ss end.

  Record inv c a : Prop := {
    i_shows : shows V c a;
    i_uniq : forall b w w', owner c b w -> owner c b w' -> w = w';
    i_live : forall b, blocks (mem c) b <> None -> exists w, owner c b w;
    i_fresh : forall b, blocks (mem c) b <> None -> b < fresh (mem c);
    i_tab : forall k x, nth_error (subs a) k = Some (Some x) -> table V (ss_of x) }.

  Lemma owner_live c a b w : inv c a -> owner c b w -> exists l, blocks (mem c) b = Some l.
  Proof.
    intros I O. destruct (i_shows _ _ I) as [HL HO]. destruct w as [i|k]; cbn in O.
    - destruct (both_at _ _ _ _ _ HL O) as (x & _ & R). cbn in R. destruct x as [f|]; [|contradiction].
      destruct R as (l & H & _). eauto.
    - destruct O as (s & O & W & P). destruct (both_at _ _ _ _ _ HO O) as (x & _ & R). cbn in R.
      destruct x as [[|l ss|ss f]|]; try contradiction.
      + subst s. discriminate.
      + destruct R as (b' & -> & _). discriminate.
      + destruct R as (b' & l & -> & H & _). cbn in P. injection P as ->. eauto.
  Qed.

  (** ** Frames *)

  Lemma lattice_frame h h' o x :
    shows_lattice V h o x -> (forall b, o = Some b -> blocks h' b = blocks h b) ->
    shows_lattice V h' o x.
  Proof.
    destruct o as [b|], x as [f|]; cbn; auto. intros (l & H & R) E. exists l.
    rewrite E; auto.
  Qed.

  Definition lats_frame h (lats : list (option nat)) h' (lats' : list (option nat)) : Prop :=
    (forall l b, nth_error lats l = Some (Some b) ->
       nth_error lats' l = Some (Some b) \/
       nth_error lats' l = Some None /\ blocks h' b = None /\ b < fresh h') /\
    (forall l, nth_error lats l = Some None -> nth_error lats' l = Some None) /\
    (forall b, blocks h b = None -> b < fresh h -> blocks h' b = None /\ b < fresh h').

  Lemma sub_frame h lats h' lats' o x :
    shows_sub h lats o x -> lats_frame h lats h' lats' ->
    (forall s b, o = Some s -> owns s = true -> pF s = Some b -> blocks h' b = blocks h b) ->
    shows_sub h' lats' o x.
  Proof.
    destruct o as [s|], x as [[|l ss|ss f]|]; cbn; auto.
    - intros (b & -> & [H|(H1 & H2 & H3)]) (F1 & F2 & F3) E; exists b; (split; [reflexivity|]); auto.
    - intros (b & l & -> & H & R) F E. exists b, l. split; auto. split; auto.
      rewrite <- H. eapply E; cbn; eauto.
  Qed.

  Lemma lats_frame_same h h' lats :
    (forall b, blocks h b = None -> b < fresh h -> blocks h' b = None /\ b < fresh h') ->
    lats_frame h lats h' lats.
  Proof. intros H. repeat split; auto; apply H; auto. Qed.

  Definition frame h h' : Prop :=
    (forall b, blocks h b <> None -> blocks h' b = blocks h b) /\
    (forall b, blocks h b = None -> b < fresh h -> blocks h' b = None /\ b < fresh h').

  (** ** New objects *)

  Lemma nth_last_ne {A} (l : list A) x i y : nth_error l i = Some y -> nth_error (l ++ [x]) i = Some y.
  Proof.
    intros H. rewrite nth_app_last. destruct (Nat.eqb_spec i (length l)) as [->|]; auto.
    assert (nth_error l (length l) = None) by (apply nth_error_None; auto). congruence.
  Qed.

  Lemma inv_new_obj c a h s x :
    inv c a ->
    (forall b, blocks (mem c) b <> None -> blocks h b = blocks (mem c) b) ->
    fresh (mem c) <= fresh h ->
    (forall b, blocks h b <> None -> b < fresh h) ->
    (forall b, blocks h b <> None -> blocks (mem c) b <> None \/ owns s = true /\ pF s = Some b) ->
    (forall b, owns s = true -> pF s = Some b -> fresh (mem c) <= b) ->
    shows_sub h (lat c) (Some s) (Some x) -> table V (ss_of x) ->
    inv (new_obj c h s) (add_sub a x).
  Proof.
    intros I K F B N Fr S Ht. pose proof (i_shows _ _ I) as [HL HO].
    assert (Fr1 : lats_frame (mem c) (lat c) h (lat c)).
    { apply lats_frame_same. intros b Hb Hf. split; [|lia].
      destruct (blocks h b) as [l|] eqn:E; auto. exfalso.
      destruct (N b) as [H|[H1 H2]]; [congruence|congruence|]. specialize (Fr b H1 H2). lia. }
    assert (OW : forall b w, owner (new_obj c h s) b w ->
                   owner c b w \/ w = inr (length (obj c)) /\ owns s = true /\ pF s = Some b).
    { intros b [i|k]; cbn; auto. intros (s' & H & W & P). rewrite nth_app_last in H.
      destruct (Nat.eqb_spec k (length (obj c))) as [->|Hk].
      - injection H as <-. auto.
      - left. eauto. }
    constructor; unfold new_obj, add_sub; cbn [mem lat obj lattices subs].
    - split; cbn [mem lat obj lattices subs].
      + apply Forall2_nth. intros i. pose proof (proj1 (Forall2_nth _ _ _) HL i) as Hi.
        unfold at_both in *. destruct (nth_error (lat c) i) as [o|] eqn:E1,
          (nth_error (lattices a) i) as [y|]; auto.
        eapply lattice_frame; [exact Hi|]. intros b ->. apply K.
        destruct (owner_live c a b (inl i) I E1) as [l ->]. discriminate.
      + apply Forall2_app.
        * apply Forall2_nth. intros k. pose proof (proj1 (Forall2_nth _ _ _) HO k) as Hi.
          unfold at_both in *. destruct (nth_error (obj c) k) as [o|] eqn:E1,
            (nth_error (subs a) k) as [y|]; auto.
          eapply sub_frame; [exact Hi|exact Fr1|]. intros s' b -> W P. apply K.
          destruct (owner_live c a b (inr k) I) as [l ->]; [cbn; eauto|discriminate].
        * constructor; auto.
    - intros b w w' O1 O2. destruct (OW _ _ O1) as [P1|(-> & Q1 & Q1')], (OW _ _ O2) as [P2|(-> & Q2 & Q2')];
        auto.
      + eapply i_uniq; eauto.
      + exfalso. destruct (owner_live c a b w I P1) as [l El].
        assert (H : b < fresh (mem c)) by (eapply i_fresh; [eassumption|congruence]).
        specialize (Fr b Q2 Q2'). lia.
      + exfalso. destruct (owner_live c a b w' I P2) as [l El].
        assert (H : b < fresh (mem c)) by (eapply i_fresh; [eassumption|congruence]).
        specialize (Fr b Q1 Q1'). lia.
    - cbn [mem]. intros b Hb. destruct (N b Hb) as [H|[H1 H2]].
      + destruct (i_live _ _ I b H) as [[i|k] O]; [exists (inl i); exact O|].
        exists (inr k). destruct O as (s' & O & R). exists s'. split; auto.
        cbn [obj]. apply nth_last_ne. auto.
      + exists (inr (length (obj c))). exists s. split; auto. cbn [obj].
        rewrite nth_app_last, Nat.eqb_refl. auto.
    - exact B.
    - cbn [subs]. intros k y. rewrite nth_app_last. destruct (_ =? _).
      + intros E. injection E as <-. exact Ht.
      + apply (i_tab _ _ I).
  Qed.

  (** ** Writing into the block of a lattice *)

  Lemma inv_write_lattice c a i b l h' l' f f' :
    inv c a -> nth_error (lat c) i = Some (Some b) -> nth_error (lattices a) i = Some (Some f) ->
    changed (mem c) b l h' l' -> (forall p, p < V -> nth_error l' p = Some (f' p)) ->
    inv (with_mem c h') (set_lat a i (Some f')).
  Proof.
    intros I E1 E2 (A1 & A2 & A3 & A4 & A5) P. pose proof (i_shows _ _ I) as [HL HO].
    assert (U : forall w, owner c b w -> w = inl i) by (intros w O; eapply (i_uniq _ _ I b); eauto).
    assert (D : forall b', blocks h' b' <> None -> blocks (mem c) b' <> None).
    { intros b' H. destruct (Nat.eq_dec b' b) as [->|Hne]; [congruence|]. rewrite <- A4; auto. }
    assert (Vl : length l = V).
    { destruct (both_at _ _ _ _ _ HL E1) as (y & Ey & R). rewrite E2 in Ey. injection Ey as <-.
      destruct R as (l0 & H & H' & _). congruence. }
    constructor; unfold with_mem, set_lat; cbn [mem lat obj lattices subs].
    - split; cbn [mem lat obj lattices subs].
      + apply Forall2_nth. intros i'. pose proof (proj1 (Forall2_nth _ _ _) HL i') as Hi.
        rewrite nth_put_at. unfold at_both in *.
        destruct (Nat.eqb_spec i' i) as [->|Hne].
        * rewrite E1, E2. exists l'. split; auto. split; [congruence|auto].
        * destruct (nth_error (lat c) i') as [o|] eqn:E3, (nth_error (lattices a) i') as [y|]; auto.
          eapply lattice_frame; [exact Hi|]. intros b' ->. apply A4. intros ->.
          specialize (U (inl i') E3). congruence.
      + apply Forall2_nth. intros k. pose proof (proj1 (Forall2_nth _ _ _) HO k) as Hi.
        unfold at_both in *. destruct (nth_error (obj c) k) as [o|] eqn:E3,
          (nth_error (subs a) k) as [y|]; auto.
        eapply sub_frame; [exact Hi| |].
        * apply lats_frame_same. intros b' Hb' Hf. split; [|lia].
          rewrite A4; auto. congruence.
        * intros s b' -> W Pf. apply A4. intros ->.
          assert (O : owner c b (inr k)) by (cbn; eauto). specialize (U _ O). discriminate.
    - intros b' w w' O1 O2. apply (i_uniq _ _ I b' w w'); auto.
    - cbn [mem]. intros b' Hb'. destruct (i_live _ _ I b' (D _ Hb')) as [w O]. exists w. exact O.
    - cbn [mem]. intros b' Hb'. rewrite A5. eapply i_fresh; eauto.
    - exact (i_tab _ _ I).
  Qed.

  (** ** Writing into the block of an owner *)

  Lemma inv_write_sub c a k b l h' l' ss f f' :
    inv c a ->
    nth_error (obj c) k = Some (Some {| pF := Some b; owns := true; pS := Some ss |}) ->
    nth_error (subs a) k = Some (Some (Own ss f)) ->
    changed (mem c) b l h' l' ->
    (forall j i, nth_error ss j = Some i -> nth_error l' j = Some (f' i)) ->
    inv (with_mem c h') (set_sub a k (Some (Own ss f'))).
  Proof.
    intros I E1 E2 (A1 & A2 & A3 & A4 & A5) P. pose proof (i_shows _ _ I) as [HL HO].
    assert (O0 : owner c b (inr k)) by (cbn; eexists; split; [exact E1|auto]).
    assert (U : forall w, owner c b w -> w = inr k) by (intros w O; eapply (i_uniq _ _ I b); eauto).
    assert (D : forall b', blocks h' b' <> None -> blocks (mem c) b' <> None).
    { intros b' H. destruct (Nat.eq_dec b' b) as [->|Hne]; [congruence|]. rewrite <- A4; auto. }
    assert (Vl : length l = length ss).
    { destruct (both_at _ _ _ _ _ HO E1) as (y & Ey & R). rewrite E2 in Ey. injection Ey as <-.
      destruct R as (b0 & l0 & H0 & H & H' & _). injection H0 as <-. congruence. }
    constructor; unfold with_mem, set_sub; cbn [mem lat obj lattices subs].
    - split; cbn [mem lat obj lattices subs].
      + apply Forall2_nth. intros i'. pose proof (proj1 (Forall2_nth _ _ _) HL i') as Hi.
        unfold at_both in *.
        destruct (nth_error (lat c) i') as [o|] eqn:E3, (nth_error (lattices a) i') as [y|]; auto.
        eapply lattice_frame; [exact Hi|]. intros b' ->. apply A4. intros ->.
        specialize (U (inl i') E3). discriminate.
      + apply Forall2_nth. intros k'. pose proof (proj1 (Forall2_nth _ _ _) HO k') as Hi.
        rewrite nth_put_at. unfold at_both in *.
        destruct (Nat.eqb_spec k' k) as [->|Hne].
        * rewrite E1, E2. exists b, l'. split; auto. split; auto. split; [congruence|auto].
        * destruct (nth_error (obj c) k') as [o|] eqn:E3, (nth_error (subs a) k') as [y|]; auto.
          eapply sub_frame; [exact Hi| |].
          { apply lats_frame_same. intros b' Hb' Hf. split; [|lia].
            rewrite A4; auto. congruence. }
          { intros s b' -> W Pf. apply A4. intros ->.
            assert (O : owner c b (inr k')) by (cbn; eauto). specialize (U _ O). congruence. }
    - intros b' w w' O1 O2. apply (i_uniq _ _ I b' w w'); auto.
    - cbn [mem]. intros b' Hb'. destruct (i_live _ _ I b' (D _ Hb')) as [w O]. exists w. exact O.
    - cbn [mem]. intros b' Hb'. rewrite A5. eapply i_fresh; eauto.
    - cbn [subs]. intros k' x. rewrite nth_put_at. destruct (Nat.eqb_spec k' k) as [->|].
      + rewrite E2. intros E. injection E as <-. apply (i_tab _ _ I k (Own ss f) E2).
      + apply (i_tab _ _ I).
  Qed.

  (** ** Lookups *)

  Lemma lat_sim c a i : inv c a ->
    match the_lat c i, a_lat a i with
    | Val b, Val f => nth_error (lat c) i = Some (Some b) /\ nth_error (lattices a) i = Some (Some f) /\
                      exists l, blocks (mem c) b = Some l /\ length l = V /\
                                forall p, p < V -> nth_error l p = Some (f p)
    | Undef, Undef => True
    | _, _ => False
    end.
  Proof.
    intros I. destruct (i_shows _ _ I) as [HL _].
    pose proof (proj1 (Forall2_nth _ _ _) HL i) as Hi. unfold at_both in Hi.
    unfold the_lat, a_lat.
    destruct (nth_error (lat c) i) as [[b|]|], (nth_error (lattices a) i) as [[f|]|];
      cbn in Hi; auto; try contradiction.
  Qed.

  Lemma obj_sim c a k : inv c a ->
    match the_obj c k, a_sub a k with
    | Val s, Val x => nth_error (obj c) k = Some (Some s) /\ nth_error (subs a) k = Some (Some x) /\
                      shows_sub (mem c) (lat c) (Some s) (Some x) /\ table V (ss_of x)
    | Undef, Undef => True
    | _, _ => False
    end.
  Proof.
    intros I. destruct (i_shows _ _ I) as [_ HO].
    pose proof (proj1 (Forall2_nth _ _ _) HO k) as Hi. unfold at_both in Hi.
    unfold the_obj, a_sub.
    destruct (nth_error (obj c) k) as [[s|]|], (nth_error (subs a) k) as [[x|]|] eqn:E;
      cbn in Hi; auto; try contradiction.
    repeat split; auto; apply (i_tab _ _ I k x E).
  Qed.

  Lemma peek_seen c a i : inv c a -> i < V -> peek (mem c) (lat c) i = seen a i.
  Proof.
    intros I Hi. destruct (i_shows _ _ I) as [HL _]. unfold peek, seen.
    induction HL as [|o x lo lx H HL IH]; cbn; auto. f_equal; auto.
    destruct o as [b|], x as [f|]; cbn in H; auto; try contradiction.
    destruct H as (l & E & _ & P). unfold load. rewrite E, (P i Hi). reflexivity.
  Qed.
End Sim.

(** Every statement, and every program: memory and meaning stay together. *)
From Coq Require Import List Arith Bool Lia.
From Verif Require Import Base SubModel SubSpec SubProofs SubSim.
Import ListNotations.
Local Open Scope nat_scope.

Section Step.
  Context {T : Type}.
  Variable V : nat.
  Notation heap := (heap T).
  Implicit Types h : heap.
  Implicit Types c : st T.
  Implicit Types a : vars T.
  Implicit Types f g : field T.

  Definition both (r : res (st T)) (q : res (vars T)) : Prop :=
    match r, q with
    | Val c, Val a => inv V c a
    | Abort, Abort => True
    | Undef, Undef => True
    | _, _ => False
    end.

  (** ** Allocation *)

  Lemma alloc_spec h n :
    let '(h', b) := alloc h n in
    b = fresh h /\ fresh h' = S (fresh h) /\ blocks h' b = Some (repeat None n) /\
    (forall b', b' <> b -> blocks h' b' = blocks h b').
  Proof.
    unfold alloc. cbn. rewrite Nat.eqb_refl. repeat split; auto.
    intros b' H. destruct (Nat.eqb_spec b' (fresh h)); congruence.
  Qed.

  Lemma nth_repeat_none n j : j < n -> nth_error (repeat (@None T) n) j = Some None.
  Proof.
    intros H. rewrite nth_error_nth' with (d := None) by (rewrite repeat_length; auto).
    f_equal. apply nth_repeat.
  Qed.

  Lemma put_at_app {A} (l : list A) x y : put_at (l ++ [x]) (length l) y = l ++ [y].
  Proof. induction l; simpl; f_equal; auto. Qed.

  (** A new owner in a fresh block. *)
  Lemma inv_new_owner c a h b l ss f :
    inv V c a -> b = fresh (mem c) -> fresh h = S (fresh (mem c)) ->
    blocks h b = Some l -> (forall b', b' <> b -> blocks h b' = blocks (mem c) b') ->
    length l = length ss ->
    (forall j i, nth_error ss j = Some i -> nth_error l j = Some (f i)) -> table V ss ->
    inv V (new_obj c h {| pF := Some b; owns := true; pS := Some ss |}) (add_sub a (Own ss f)).
  Proof.
    intros I Hb F E K L P Ht. eapply inv_new_obj; eauto.
    - intros b' Hb'. apply K. intros ->. pose proof (i_fresh _ _ _ I _ Hb'). lia.
    - lia.
    - intros b' Hb'. rewrite F. destruct (Nat.eq_dec b' b) as [->|Hne]; [lia|].
      rewrite K in Hb' by auto. pose proof (i_fresh _ _ _ I _ Hb'). lia.
    - intros b' Hb'. destruct (Nat.eq_dec b' b) as [->|Hne]; [right; auto|].
      left. rewrite <- K; auto.
    - cbn. intros b' _ E'. injection E' as <-. lia.
    - cbn. exists b, l. auto.
  Qed.

  Lemma seq_id n : map (fun j : nat => j) (seq 0 n) = seq 0 n.
  Proof. apply map_id. Qed.

  (** ** Constructors *)

  Lemma new_lattice_ok c a : inv V c a -> both (step V c NewLattice) (means a NewLattice).
  Proof.
    intros I. cbn [step means]. pose proof (alloc_spec (mem c) V) as A.
    destruct (alloc (mem c) V) as [h b]. destruct A as (Hb & F & E & K). cbn [both].
    pose proof (i_shows _ _ _ I) as [HL HO].
    assert (Lv : forall b', blocks (mem c) b' <> None -> b' <> b)
      by (intros b' Hb' ->; pose proof (i_fresh _ _ _ I _ Hb'); lia).
    assert (OW : forall b' w, owner {| mem := h; lat := lat c ++ [Some b]; obj := obj c |} b' w ->
                   owner c b' w \/ w = inl (length (lat c)) /\ b' = b).
    { intros b' [i|k]; cbn; auto. rewrite nth_app_last.
      destruct (Nat.eqb_spec i (length (lat c))) as [->|Hk]; auto.
      intros H. injection H as <-. auto. }
    constructor.
    - split; cbn [mem lat obj lattices subs].
      + apply Forall2_app.
        * apply Forall2_nth. intros i. pose proof (proj1 (Forall2_nth _ _ _) HL i) as Hi.
          unfold at_both in *. destruct (nth_error (lat c) i) as [o|] eqn:E1,
            (nth_error (lattices a) i) as [y|]; auto.
          eapply lattice_frame; [exact Hi|]. intros b' ->. apply K, Lv.
          destruct (owner_live V c a b' (inl i) I E1) as [l ->]. discriminate.
        * constructor; auto. exists (repeat None V). split; auto.
          split; [apply repeat_length|]. intros i Hi. apply nth_repeat_none. auto.
      + apply Forall2_nth. intros k. pose proof (proj1 (Forall2_nth _ _ _) HO k) as Hi.
        unfold at_both in *. destruct (nth_error (obj c) k) as [o|] eqn:E1,
          (nth_error (subs a) k) as [y|]; auto.
        eapply sub_frame; [exact Hi| |].
        * split; [|split].
          { intros l b' H. left. apply nth_last_ne. auto. }
          { intros l H. apply nth_last_ne. auto. }
          { intros b' Hb' Hf. split; [|lia]. rewrite K; auto. lia. }
        * intros s b' -> W P. apply K, Lv.
          destruct (owner_live V c a b' (inr k) I) as [l ->]; [cbn; eauto|discriminate].
    - intros b' w w' O1 O2.
      destruct (OW _ _ O1) as [P1|(-> & Q1)], (OW _ _ O2) as [P2|(-> & Q2)]; auto.
      + eapply i_uniq; eauto.
      + exfalso. subst b'. destruct (owner_live V c a b w I P1) as [l El]. apply (Lv b); congruence.
      + exfalso. subst b'. destruct (owner_live V c a b w' I P2) as [l El]. apply (Lv b); congruence.
    - cbn [mem]. intros b' Hb'. destruct (Nat.eq_dec b' b) as [->|Hne].
      + exists (inl (length (lat c))). cbn. rewrite nth_app_last, Nat.eqb_refl. auto.
      + rewrite K in Hb' by auto. destruct (i_live _ _ _ I b' Hb') as [[i|k] O].
        * exists (inl i). cbn. apply nth_last_ne. auto.
        * exists (inr k). exact O.
    - cbn [mem]. intros b' Hb'. destruct (Nat.eq_dec b' b) as [->|Hne]; [lia|].
      rewrite K in Hb' by auto. pose proof (i_fresh _ _ _ I _ Hb'). lia.
    - exact (i_tab _ _ _ I).
  Qed.

  (** A variable that owns nothing. *)
  Lemma inv_new_plain c a s x :
    inv V c a -> owns s = false -> shows_sub (mem c) (lat c) (Some s) (Some x) ->
    table V (ss_of x) -> inv V (new_obj c (mem c) s) (add_sub a x).
  Proof.
    intros I W S Ht. eapply inv_new_obj; eauto.
    - apply (i_fresh _ _ _ I).
    - congruence.
  Qed.

  Lemma table_nil : table V [].
  Proof. split; [constructor|intros i []]. Qed.

  Lemma declare_ok c a : inv V c a -> both (step V c Declare) (means a Declare).
  Proof.
    intros I. cbn. apply inv_new_plain; auto; [cbn; auto|apply table_nil].
  Qed.

  Lemma view_ok c a l ss : inv V c a -> table V ss -> both (step V c (View l ss)) (means a (View l ss)).
  Proof.
    intros I Ht. cbn [step means]. pose proof (lat_sim V c a l I) as H.
    destruct (the_lat c l) as [b| |], (a_lat a l) as [f| |]; try contradiction; cbn; auto.
    destruct H as (H1 & H2 & H3). apply inv_new_plain; auto. cbn. exists b. auto.
  Qed.

  (** Filling a fresh block. *)
  Lemma fill_fresh h n (body : heap -> nat -> res heap) (val : heap -> nat -> res (cell T)) :
    let '(h1, b) := alloc h n in
    (forall h j, body h j = bind (val h j) (store h b j)) ->
    (forall h' j, (forall b', b' <> b -> blocks h' b' = blocks h b') -> j < n -> val h' j = val h1 j) ->
    (forall j, j < n -> val h1 j <> Abort) ->
    (exists j, j < n /\ val h1 j = Undef) /\ loop (seq 0 n) body h1 = Undef \/
    exists h2 l, loop (seq 0 n) body h1 = Val h2 /\ blocks h2 b = Some l /\ length l = n /\
      fresh h2 = S (fresh h) /\ (forall b', b' <> b -> blocks h2 b' = blocks h b') /\
      (forall j, j < n -> exists x, val h1 j = Val x /\ nth_error l j = Some x).
  Proof.
    pose proof (alloc_spec h n) as A. destruct (alloc h n) as [h1 b].
    destruct A as (Hb & F & E & K). intros Hbody Hs Ha.
    assert (Sx : stable b (fun j => j) val h1 (repeat None n) (seq 0 n)).
    { intros h' l' j Hj (C1 & C2 & C3 & C4 & C5) _. apply Hs.
      - intros b' Hb'. rewrite C4; auto.
      - apply in_seq in Hj. lia. }
    assert (Hd : NoDup (map (fun j => j) (seq 0 n))) by (rewrite seq_id; apply seq_NoDup).
    assert (Hl : forall j, In j (seq 0 n) -> j < length (repeat (@None T) n))
      by (intros j Hj; rewrite repeat_length; apply in_seq in Hj; lia).
    assert (D : (exists j, j < n /\ val h1 j = Undef) \/
                forall j, In j (seq 0 n) -> exists x, val h1 j = Val x).
    { clear - Ha. assert (H : forall m, m <= n -> (exists j, j < n /\ val h1 j = Undef) \/
                forall j, j < m -> exists x, val h1 j = Val x).
      { induction m as [|m IH]; intros Hm; [right; intros; lia|].
        destruct IH as [H|H]; [lia|auto|].
        specialize (Ha m ltac:(lia)). destruct (val h1 m) as [x| |] eqn:E; [|congruence|].
        - right. intros j Hj. destruct (Nat.eq_dec j m) as [->|]; [eauto|apply H; lia].
        - left. exists m. split; [lia|auto]. }
      destruct (H n (le_n n)) as [H'|H']; auto. right. intros j Hj. apply in_seq in Hj. apply H'. lia. }
    destruct D as [(j & Hj & Hu)|D].
    - left. split; [eauto|].
      eapply (loop_undef b (fun j => j) val body Hbody); eauto.
      + intros j' Hj'. apply in_seq in Hj'. apply Ha. lia.
      + exists j. split; auto. apply in_seq. lia.
    - right.
      destruct (loop_ok b (fun j => j) val body Hbody (seq 0 n) h1 _ E Hd Hl Sx D)
        as (h2 & l2 & E2 & (C1 & C2 & C3 & C4 & C5) & P2 & Q2).
      exists h2, l2. split; auto. split; auto.
      split; [rewrite C3; apply repeat_length|]. split; [lia|].
      split; [intros b' Hb'; rewrite C4, K; auto|].
      intros j Hj. assert (Hin : In j (seq 0 n)) by (apply in_seq; lia).
      destruct (D j Hin) as [x Hx]. exists x. split; [exact Hx|].
      exact (P2 j x Hin Hx).
  Qed.

  Lemma gather_ok c a ss l : inv V c a -> table V ss ->
    both (step V c (Gather ss l)) (means a (Gather ss l)).
  Proof.
    intros I Ht. cbn [step means]. pose proof (lat_sim V c a l I) as H.
    destruct (the_lat c l) as [b| |], (a_lat a l) as [f| |]; try contradiction; cbn [bind].
    - destruct H as (H1 & H2 & x & Hx & Hlen & Hval). unfold gather.
      pose proof (fill_fresh (mem c) (length ss)
        (fun h j => bind (load h b (tab ss j)) (store h (snd (alloc (mem c) (length ss))) j))
        (fun h j => load h b (tab ss j))) as FF.
      pose proof (alloc_spec (mem c) (length ss)) as A.
      destruct (alloc (mem c) (length ss)) as [h1 nb] eqn:EA. cbn [snd] in FF.
      destruct A as (Hb & F & E & K).
      assert (Hne : b <> nb).
      { intros ->. assert (nb < fresh (mem c)) by (apply (i_fresh _ _ _ I); congruence). lia. }
      assert (Hv : forall j, j < length ss -> load h1 b (tab ss j) = Val (f (tab ss j))).
      { intros j Hj. unfold load. rewrite K, Hx by auto. rewrite Hval; auto.
        apply Ht. eapply nth_error_In. apply tab_lt. auto. }
      destruct FF as [((j & Hj & Hu) & _)|(h2 & l2 & E2 & B2 & L2 & F2 & K2 & P2)].
      + reflexivity.
      + intros h' j Hk Hj. unfold load. rewrite Hk, K; auto.
      + intros j Hj. rewrite Hv; auto. discriminate.
      + rewrite Hv in Hu; [discriminate|auto].
      + rewrite E2. cbn [bind both]. eapply inv_new_owner; eauto.
        intros j i Hji. assert (Hj : j < length ss) by (apply nth_error_Some; congruence).
        destruct (P2 j Hj) as (y & Hy & Hn). rewrite Hv in Hy by auto. injection Hy as <-.
        rewrite Hn. rewrite (tab_nth _ _ _ Hji). reflexivity.
    - exact Logic.I.
  Qed.

  Lemma copy_ok c a k : inv V c a -> both (step V c (Copy k)) (means a (Copy k)).
  Proof.
    intros I. cbn [step means]. pose proof (obj_sim V c a k I) as H.
    destruct (the_obj c k) as [s| |], (a_sub a k) as [x| |]; try contradiction; cbn [bind both]; auto.
    destruct H as (H1 & H2 & H3 & Ht).
    destruct x as [|l ss|ss f]; cbn in H3.
    - subst s. cbn. apply inv_new_plain; auto. cbn. auto.
    - destruct H3 as (b & -> & R). cbn. apply inv_new_plain; auto. cbn. exists b. auto.
    - destruct H3 as (b & x & -> & Hx & Hlen & Hval). unfold copy_sub. cbn [owns pS pF deref of_option bind].
      pose proof (fill_fresh (mem c) (length ss)
        (fun h i => bind (load h b i) (store h (snd (alloc (mem c) (length ss))) i))
        (fun h j => load h b j)) as FF.
      pose proof (alloc_spec (mem c) (length ss)) as A.
      destruct (alloc (mem c) (length ss)) as [h1 nb] eqn:EA. cbn [snd] in FF.
      destruct A as (Hb & F & E & K).
      assert (Hne : b <> nb).
      { intros ->. assert (nb < fresh (mem c)) by (apply (i_fresh _ _ _ I); congruence). lia. }
      assert (Hv : forall j, j < length ss -> load h1 b j = Val (f (tab ss j))).
      { intros j Hj. unfold load. rewrite K, Hx by auto.
        rewrite (Hval j (tab ss j)); auto. apply tab_lt. auto. }
      destruct FF as [((j & Hj & Hu) & _)|(h2 & l2 & E2 & B2 & L2 & F2 & K2 & P2)].
      + reflexivity.
      + intros h' j Hk Hj. unfold load. rewrite Hk, K; auto.
      + intros j Hj. rewrite Hv; auto. discriminate.
      + rewrite Hv in Hu; [discriminate|auto].
      + cbn [deref of_option bind]. rewrite E2. cbn [bind both]. eapply inv_new_owner; eauto.
        intros j i Hji. assert (Hj : j < length ss) by (apply nth_error_Some; congruence).
        destruct (P2 j Hj) as (y & Hy & Hn). rewrite Hv in Hy by auto. injection Hy as <-.
        rewrite Hn. rewrite (tab_nth _ _ _ Hji). reflexivity.
  Qed.

  (** ** Destructors *)

  Lemma drop_lattice_ok c a l : inv V c a -> both (step V c (DropLattice l)) (means a (DropLattice l)).
  Proof.
    intros I. cbn [step means]. pose proof (lat_sim V c a l I) as H.
    destruct (the_lat c l) as [b| |], (a_lat a l) as [f| |]; try contradiction; cbn [bind both]; auto.
    destruct H as (H1 & H2 & x & Hx & _). unfold free. rewrite Hx. cbn [bind both].
    pose proof (i_shows _ _ _ I) as [HL HO].
    assert (U : forall w, owner c b w -> w = inl l) by (intros w O; eapply (i_uniq _ _ _ I b); eauto).
    assert (Fb : b < fresh (mem c)) by (apply (i_fresh _ _ _ I); congruence).
    set (h := set_block (mem c) b None).
    assert (K : forall b', b' <> b -> blocks h b' = blocks (mem c) b').
    { intros b' Hb'. unfold h. cbn. destruct (Nat.eqb_spec b' b); congruence. }
    assert (E : blocks h b = None) by (unfold h; cbn; rewrite Nat.eqb_refl; auto).
    assert (D : forall b', blocks h b' <> None -> blocks (mem c) b' <> None /\ b' <> b).
    { intros b' Hb'. destruct (Nat.eq_dec b' b) as [->|]; [congruence|]. rewrite <- K; auto. }
    assert (OW : forall b' w, owner {| mem := h; lat := put_at (lat c) l None; obj := obj c |} b' w ->
                   owner c b' w /\ w <> inl l).
    { intros b' [i|k]; cbn; [|intros O; split; auto; discriminate].
      rewrite nth_put_at. destruct (Nat.eqb_spec i l) as [->|Hne].
      - rewrite H1. discriminate.
      - intros O. split; auto. congruence. }
    constructor; unfold set_lat; cbn [mem lat obj lattices subs].
    - split; cbn [mem lat obj lattices subs].
      + apply Forall2_nth. intros i. pose proof (proj1 (Forall2_nth _ _ _) HL i) as Hi.
        rewrite !nth_put_at. unfold at_both in *. destruct (Nat.eqb_spec i l) as [->|Hne].
        * rewrite H1, H2. exact Logic.I.
        * destruct (nth_error (lat c) i) as [o|] eqn:E1, (nth_error (lattices a) i) as [y|]; auto.
          eapply lattice_frame; [exact Hi|]. intros b' ->. apply K. intros ->.
          specialize (U (inl i) E1). congruence.
      + apply Forall2_nth. intros k. pose proof (proj1 (Forall2_nth _ _ _) HO k) as Hi.
        unfold at_both in *. destruct (nth_error (obj c) k) as [o|] eqn:E1,
          (nth_error (subs a) k) as [y|]; auto.
        eapply sub_frame; [exact Hi| |].
        * split; [|split].
          { intros i b' Hb'. rewrite nth_put_at. destruct (Nat.eqb_spec i l) as [->|Hne]; auto.
            right. rewrite H1 in *. injection Hb' as <-. auto. }
          { intros i Hb'. rewrite nth_put_at. destruct (Nat.eqb_spec i l) as [->|Hne]; auto.
            congruence. }
          { intros b' Hb' Hf. split; [|exact Hf]. rewrite K; auto. congruence. }
        * intros s b' -> W P. apply K. intros ->.
          assert (O : owner c b (inr k)) by (cbn; eauto). specialize (U _ O). discriminate.
    - intros b' w w' O1 O2. apply (i_uniq _ _ _ I b' w w'); [apply (OW _ _ O1)|apply (OW _ _ O2)].
    - intros b' Hb'. destruct (D _ Hb') as [D1 D2].
      destruct (i_live _ _ _ I b' D1) as [[i|k] O].
      + exists (inl i). cbn. rewrite nth_put_at. destruct (Nat.eqb_spec i l) as [->|]; auto.
        cbn in O. congruence.
      + exists (inr k). exact O.
    - intros b' Hb'. apply (i_fresh _ _ _ I). apply D. auto.
    - exact (i_tab _ _ _ I).
  Qed.

  (** An owner's block is freed and the variable loses it. *)
  Lemma inv_free_sub c a k b ss f :
    inv V c a ->
    nth_error (obj c) k = Some (Some {| pF := Some b; owns := true; pS := Some ss |}) ->
    nth_error (subs a) k = Some (Some (Own ss f)) ->
    exists h, free (mem c) b = Val h /\
      fresh h = fresh (mem c) /\
      inv V (with_obj c h k None) (set_sub a k None).
  Proof.
    intros I E1 E2. pose proof (i_shows _ _ _ I) as [HL HO].
    assert (O0 : owner c b (inr k)) by (cbn; eexists; split; [exact E1|auto]).
    destruct (owner_live V c a b _ I O0) as [x Hx].
    assert (U : forall w, owner c b w -> w = inr k) by (intros w O; eapply (i_uniq _ _ _ I b); eauto).
    assert (Fb : b < fresh (mem c)) by (apply (i_fresh _ _ _ I); congruence).
    unfold free. rewrite Hx. set (h := set_block (mem c) b None).
    exists h. split; auto. split; auto.
    assert (K : forall b', b' <> b -> blocks h b' = blocks (mem c) b').
    { intros b' Hb'. unfold h. cbn. destruct (Nat.eqb_spec b' b); congruence. }
    assert (E : blocks h b = None) by (unfold h; cbn; rewrite Nat.eqb_refl; auto).
    assert (D : forall b', blocks h b' <> None -> blocks (mem c) b' <> None /\ b' <> b).
    { intros b' Hb'. destruct (Nat.eq_dec b' b) as [->|]; [congruence|]. rewrite <- K; auto. }
    assert (OW : forall b' w, owner (with_obj c h k None) b' w -> owner c b' w /\ w <> inr k).
    { intros b' [i|k']; cbn; [intros O; split; auto; discriminate|].
      rewrite nth_put_at. intros (s & O & R). destruct (Nat.eqb_spec k' k) as [->|Hne].
      - rewrite E1 in O. discriminate.
      - split; [eauto|congruence]. }
    constructor; unfold with_obj, set_sub; cbn [mem lat obj lattices subs].
    - split; cbn [mem lat obj lattices subs].
      + apply Forall2_nth. intros i. pose proof (proj1 (Forall2_nth _ _ _) HL i) as Hi.
        unfold at_both in *.
        destruct (nth_error (lat c) i) as [o|] eqn:E3, (nth_error (lattices a) i) as [y|]; auto.
        eapply lattice_frame; [exact Hi|]. intros b' ->. apply K. intros ->.
        specialize (U (inl i) E3). discriminate.
      + apply Forall2_nth. intros k'. pose proof (proj1 (Forall2_nth _ _ _) HO k') as Hi.
        rewrite !nth_put_at. unfold at_both in *. destruct (Nat.eqb_spec k' k) as [->|Hne].
        * rewrite E1, E2. exact Logic.I.
        * destruct (nth_error (obj c) k') as [o|] eqn:E3, (nth_error (subs a) k') as [y|]; auto.
          eapply sub_frame; [exact Hi| |].
          { apply lats_frame_same. intros b' Hb' Hf. split; [|exact Hf].
            destruct (Nat.eq_dec b' b) as [->|]; auto. rewrite K; auto. }
          { intros s b' -> W P. apply K. intros ->.
            assert (O : owner c b (inr k')) by (cbn; eauto). specialize (U _ O). congruence. }
    - intros b' w w' O1 O2. apply (i_uniq _ _ _ I b' w w'); [apply (OW _ _ O1)|apply (OW _ _ O2)].
    - intros b' Hb'. destruct (D _ Hb') as [D1 D2].
      destruct (i_live _ _ _ I b' D1) as [[i|k'] O].
      + exists (inl i). exact O.
      + exists (inr k'). cbn. rewrite nth_put_at. destruct (Nat.eqb_spec k' k) as [->|].
        * destruct O as (s & O & W & P). rewrite E1 in O. injection O as <-. cbn in P. congruence.
        * exact O.
    - intros b' Hb'. apply (i_fresh _ _ _ I). apply D. auto.
    - intros k' y. rewrite nth_put_at. destruct (Nat.eqb_spec k' k) as [->|].
      + rewrite E2. discriminate.
      + apply (i_tab _ _ _ I).
  Qed.

  (** A variable that owns nothing disappears. *)
  Lemma inv_drop_plain c a k s x :
    inv V c a -> nth_error (obj c) k = Some (Some s) -> nth_error (subs a) k = Some (Some x) ->
    owns s = false -> inv V (with_obj c (mem c) k None) (set_sub a k None).
  Proof.
    intros I E1 E2 W. pose proof (i_shows _ _ _ I) as [HL HO].
    constructor; unfold with_obj, set_sub; cbn [mem lat obj lattices subs].
    - split; cbn [mem lat obj lattices subs]; auto.
      apply Forall2_nth. intros k'. pose proof (proj1 (Forall2_nth _ _ _) HO k') as Hi.
      rewrite !nth_put_at. unfold at_both in *. destruct (Nat.eqb_spec k' k) as [->|Hne]; auto.
      rewrite E1, E2. exact Logic.I.
    - assert (OW : forall b' w, owner (with_obj c (mem c) k None) b' w -> owner c b' w).
      { intros b' [i|k']; cbn; auto. rewrite nth_put_at. destruct (Nat.eqb_spec k' k) as [->|Hne]; auto.
        rewrite E1. intros (s' & O & _). discriminate. }
      intros b' w w' O1 O2. apply (i_uniq _ _ _ I b' w w'); apply OW; auto.
    - intros b' Hb'. destruct (i_live _ _ _ I b' Hb') as [[i|k'] O].
      + exists (inl i). exact O.
      + exists (inr k'). cbn. rewrite nth_put_at. destruct (Nat.eqb_spec k' k) as [->|]; auto.
        destruct O as (s' & O & W' & P). rewrite E1 in O. injection O as <-. congruence.
    - apply (i_fresh _ _ _ I).
    - intros k' y. rewrite nth_put_at. destruct (Nat.eqb_spec k' k) as [->|].
      + rewrite E2. discriminate.
      + apply (i_tab _ _ _ I).
  Qed.

  Lemma drop_ok c a k : inv V c a -> both (step V c (Drop k)) (means a (Drop k)).
  Proof.
    intros I. cbn [step means]. pose proof (obj_sim V c a k I) as H.
    destruct (the_obj c k) as [s| |], (a_sub a k) as [x| |]; try contradiction; cbn [bind both]; auto.
    destruct H as (H1 & H2 & H3 & Ht). destruct x as [|l ss|ss f]; cbn in H3.
    - subst s. cbn. eapply inv_drop_plain; eauto.
    - destruct H3 as (b & -> & R). cbn. eapply inv_drop_plain; eauto.
    - destruct H3 as (b & x & -> & Hx & Hlen & Hval).
      destruct (inv_free_sub c a k b ss f I H1 H2) as (h & E & _ & I').
      unfold destroy. cbn [owns pF deref of_option bind]. rewrite E. cbn [bind both]. exact I'.
  Qed.

  (** ** setSubset *)

  (** The variable number [k], destroyed before, gets a fresh block. *)
  Lemma inv_refill c a k ss :
    inv V c a -> nth_error (obj c) k = Some None -> nth_error (subs a) k = Some None -> table V ss ->
    let '(h, b) := alloc (mem c) (length ss) in
    inv V (with_obj c h k (Some {| pF := Some b; owns := true; pS := Some ss |}))
          (set_sub a k (Some (Own ss nothing))).
  Proof.
    intros I E1 E2 Ht. pose proof (alloc_spec (mem c) (length ss)) as A.
    destruct (alloc (mem c) (length ss)) as [h b]. destruct A as (Hb & F & E & K).
    pose proof (i_shows _ _ _ I) as [HL HO].
    assert (Lv : forall b', blocks (mem c) b' <> None -> b' <> b)
      by (intros b' Hb' ->; pose proof (i_fresh _ _ _ I _ Hb'); lia).
    set (s := {| pF := Some b; owns := true; pS := Some ss |}).
    assert (OW : forall b' w, owner (with_obj c h k (Some s)) b' w ->
                   owner c b' w \/ w = inr k /\ b' = b).
    { intros b' [i|k']; cbn; auto. rewrite nth_put_at.
      destruct (Nat.eqb_spec k' k) as [->|Hk]; auto.
      rewrite E1. intros (s' & O & W & P). injection O as <-. cbn in P. injection P as ->. auto. }
    constructor; unfold with_obj, set_sub; cbn [mem lat obj lattices subs].
    - split; cbn [mem lat obj lattices subs].
      + apply Forall2_nth. intros i. pose proof (proj1 (Forall2_nth _ _ _) HL i) as Hi.
        unfold at_both in *. destruct (nth_error (lat c) i) as [o|] eqn:E3,
          (nth_error (lattices a) i) as [y|]; auto.
        eapply lattice_frame; [exact Hi|]. intros b' ->. apply K, Lv.
        destruct (owner_live V c a b' (inl i) I E3) as [l ->]. discriminate.
      + apply Forall2_nth. intros k'. pose proof (proj1 (Forall2_nth _ _ _) HO k') as Hi.
        rewrite !nth_put_at. unfold at_both in *. destruct (Nat.eqb_spec k' k) as [->|Hne].
        * rewrite E1, E2. exists b, (repeat None (length ss)). split; auto. split; auto.
          split; [apply repeat_length|]. intros j i Hj. apply nth_repeat_none.
          apply nth_error_Some. congruence.
        * destruct (nth_error (obj c) k') as [o|] eqn:E3, (nth_error (subs a) k') as [y|]; auto.
          eapply sub_frame; [exact Hi| |].
          { apply lats_frame_same. intros b' Hb' Hf. split; [|lia]. rewrite K; auto. lia. }
          { intros s' b' -> W P. apply K, Lv.
            destruct (owner_live V c a b' (inr k') I) as [l ->]; [cbn; eauto|discriminate]. }
    - intros b' w w' O1 O2.
      destruct (OW _ _ O1) as [P1|(-> & Q1)], (OW _ _ O2) as [P2|(-> & Q2)]; auto.
      + eapply i_uniq; eauto.
      + exfalso. subst b'. destruct (owner_live V c a b w I P1) as [l El]. apply (Lv b); congruence.
      + exfalso. subst b'. destruct (owner_live V c a b w' I P2) as [l El]. apply (Lv b); congruence.
    - intros b' Hb'. destruct (Nat.eq_dec b' b) as [->|Hne].
      + exists (inr k). cbn. exists s. rewrite nth_put_at, Nat.eqb_refl, E1. auto.
      + rewrite K in Hb' by auto. destruct (i_live _ _ _ I b' Hb') as [[i|k'] O].
        * exists (inl i). exact O.
        * exists (inr k'). cbn. rewrite nth_put_at. destruct (Nat.eqb_spec k' k) as [->|]; auto.
          destruct O as (s' & O & _). congruence.
    - intros b' Hb'. destruct (Nat.eq_dec b' b) as [->|Hne]; [lia|].
      rewrite K in Hb' by auto. pose proof (i_fresh _ _ _ I _ Hb'). lia.
    - intros k' y. rewrite nth_put_at. destruct (Nat.eqb_spec k' k) as [->|].
      + rewrite E2. intros Ey. injection Ey as <-. exact Ht.
      + apply (i_tab _ _ _ I).
  Qed.

  Lemma put_at_twice {A} (l : list A) k x y : put_at (put_at l k x) k y = put_at l k y.
  Proof. revert k. induction l as [|z l IH]; intros [|k]; simpl; auto. f_equal. apply IH. Qed.

  Lemma set_subset_ok c a k ss : inv V c a -> table V ss ->
    both (step V c (SetSubset k ss)) (means a (SetSubset k ss)).
  Proof.
    intros I Ht. cbn [step means]. pose proof (obj_sim V c a k I) as H.
    destruct (the_obj c k) as [s| |], (a_sub a k) as [x| |]; try contradiction; cbn [bind both]; auto.
    destruct H as (H1 & H2 & H3 & Ht'). destruct x as [|l ss'|ss' f]; cbn in H3.
    - subst s. cbn [setSubset default_sub pF owns bind].
      pose proof (inv_drop_plain c a k _ _ I H1 H2 eq_refl) as I'.
      pose proof (inv_refill _ _ k ss I') as R.
      unfold with_obj, set_sub in R. cbn [mem lat obj lattices subs] in R.
      rewrite !nth_put_at, !Nat.eqb_refl, H1, H2 in R.
      specialize (R eq_refl eq_refl Ht). destruct (alloc (mem c) (length ss)). cbn [bind both].
      rewrite !put_at_twice in R. exact R.
    - destruct H3 as (b & -> & R). cbn. exact Logic.I.
    - destruct H3 as (b & x & -> & Hx & Hlen & Hval).
      destruct (inv_free_sub c a k b ss' f I H1 H2) as (h & E & F & I').
      cbn [setSubset pF owns bind]. rewrite E. cbn [bind].
      pose proof (inv_refill _ _ k ss I') as R.
      unfold with_obj, set_sub in R. cbn [mem lat obj lattices subs] in R.
      rewrite !nth_put_at, !Nat.eqb_refl, H1, H2 in R.
      specialize (R eq_refl eq_refl Ht). destruct (alloc h (length ss)). cbn [bind both].
      rewrite !put_at_twice in R. exact R.
  Qed.
End Step.

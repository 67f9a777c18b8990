(** Proofs for H5FileModel. *)
From Coq Require Import String List Bool Arith NArith Lia.
From Verif Require Import H5DirModel H5FileModel H5FileSpec.
Import ListNotations.
Local Arguments upd : simpl never.

Lemma upd_same {A} (f : string -> A) n a : upd f n a n = a.
Proof. unfold upd. rewrite String.eqb_refl. reflexivity. Qed.
Lemma upd_other {A} (f : string -> A) n a m : m <> n -> upd f n a m = f m.
Proof. intro H. unfold upd. apply String.eqb_neq in H. rewrite H. reflexivity. Qed.
Lemma filter_all {A} (f : A -> bool) l : (forall a, In a l -> f a = true) -> filter f l = l.
Proof. induction l as [|a l IH]; intro H; [reflexivity|]. simpl. rewrite H by (now left). f_equal. apply IH. intros b Hb. apply H. now right. Qed.
Lemma filter_filter {A} (f g : A -> bool) l : filter f (filter g l) = filter (fun a => g a && f a) l.
Proof. induction l as [|a l IH]; [reflexivity|]. simpl. destruct (g a); simpl; [destruct (f a)|]; rewrite IH; reflexivity. Qed.
Lemma filter_ext_in' {A} (f g : A -> bool) l : (forall a, In a l -> f a = g a) -> filter f l = filter g l.
Proof. induction l as [|a l IH]; intro H; [reflexivity|]. simpl. rewrite (H a) by (now left). rewrite IH; [reflexivity|]. intros b Hb. apply H. now right. Qed.
Lemma nodup_filter_map {A B} (f : A -> B) g l : NoDup (map f l) -> NoDup (map f (filter g l)).
Proof.
  induction l as [|a l IH]; intro H; [exact H|]. inversion H as [|? ? H1 H2]; subst. simpl. destruct (g a); [|auto].
  simpl. constructor; [|auto]. intro I. apply H1. apply in_map_iff in I. destruct I as [b [E I]].
  apply filter_In in I. rewrite <- E. apply in_map. tauto.
Qed.

Section Proofs.
  Variable T : Type.
  Variable empty : T.
  Variable grp : T -> path -> bool.
  Notation lib := (lib T).
  Notation st5 := (st5 T).

  Definition kpath (k : hkind) : path := match k with KFile => [] | KGroup p => p end.
  Definition ids_ok (l : lib) : Prop := NoDup (map h_id (hs T l)) /\ (forall h, In h (hs T l) -> h_id h < next T l).

  (** *** Identifiers *)
  Lemma find_in l id h : find_h T l id = Some h -> In h (hs T l) /\ h_id h = id.
  Proof. unfold find_h. intro H. apply find_some in H. destruct H as [H1 H2]. apply Nat.eqb_eq in H2. auto. Qed.
  Lemma find_none_in l id : find_h T l id = None -> forall h, In h (hs T l) -> h_id h <> id.
  Proof. unfold find_h. intros H h I E. apply (find_none _ _ H) in I. apply Nat.eqb_neq in I. auto. Qed.
  Lemma ids_inj l h g : NoDup (map h_id (hs T l)) -> In h (hs T l) -> In g (hs T l) -> h_id h = h_id g -> h = g.
  Proof.
    generalize (hs T l). intro L. induction L as [|a L IH]; intros N I J E; [destruct I|].
    inversion N as [|? ? N1 N2]; subst.
    destruct I as [->|I], J as [->|J]; auto.
    - exfalso. apply N1. rewrite E. now apply in_map.
    - exfalso. apply N1. rewrite <- E. now apply in_map.
  Qed.
  Lemma in_find l h : NoDup (map h_id (hs T l)) -> In h (hs T l) -> find_h T l (h_id h) = Some h.
  Proof.
    intros N I. destruct (find_h T l (h_id h)) as [g|] eqn:E.
    - apply find_in in E. destruct E as [J E]. f_equal. eapply ids_inj; eauto.
    - exfalso. eapply find_none_in; eauto.
  Qed.
  Lemma find_none_of l id : (forall h, In h (hs T l) -> h_id h <> id) -> find_h T l id = None.
  Proof.
    intro H. destruct (find_h T l id) as [h|] eqn:E; [|reflexivity]. apply find_in in E. destruct E as [I E].
    exfalso. exact (H h I E).
  Qed.

  (** *** Closing identifiers *)
  Definition without (l : lib) (b : handle -> bool) : lib := mkLib T (disk T l) (live T l) (filter b (hs T l)) (next T l).
  Lemma close_keep l id g : In g (hs T l) -> h_id g <> id -> (forall h, find_h T l id = Some h -> h_name h = h_name g) ->
    close_h T l id = without l (fun h => negb (h_id h =? id)).
  Proof.
    intros I D E. unfold close_h, without. destruct (find_h T l id) as [h|] eqn:F.
    - destruct (existsb _ _) eqn:X; [reflexivity|]. exfalso.
      assert (existsb (fun g0 => (h_name g0 =? h_name h)%string) (filter (fun g0 => negb (h_id g0 =? id)) (hs T l)) = true) as Y.
      { apply existsb_exists. exists g. split.
        - apply filter_In. split; [exact I|]. apply Nat.eqb_neq in D. rewrite D. reflexivity.
        - rewrite (E h eq_refl). apply String.eqb_refl. }
      rewrite Y in X. discriminate.
    - rewrite filter_all; [destruct l; reflexivity|]. intros h J. pose proof (find_none_in l id F h J) as K.
      apply Nat.eqb_neq in K. rewrite K. reflexivity.
  Qed.
  Lemma close_fold ids g : forall l, In g (hs T l) -> ~ In (h_id g) ids ->
    (forall h, In h (hs T l) -> In (h_id h) ids -> h_name h = h_name g) ->
    fold_left (close_h T) ids l = without l (fun h => negb (existsb (Nat.eqb (h_id h)) ids)).
  Proof.
    induction ids as [|i ids IH]; intros l I D E.
    - simpl. unfold without. rewrite filter_all by reflexivity. destruct l; reflexivity.
    - simpl. rewrite (close_keep l i g).
      + rewrite IH.
        * unfold without. simpl. f_equal. rewrite filter_filter. apply filter_ext_in'. intros h _.
          rewrite negb_orb. reflexivity.
        * apply filter_In. split; [exact I|]. apply negb_true_iff, Nat.eqb_neq. intro J. apply D. left. auto.
        * intro J. apply D. now right.
        * intros h J K. apply filter_In in J. apply E; [tauto|now right].
      + exact I.
      + intro J. apply D. left. auto.
      + intros h J. apply find_in in J. destruct J as [J K]. apply E; [exact J|]. left. auto.
  Qed.
  Definition other_name (n : string) (h : handle) : bool := negb (h_name h =? n)%string.
  (** The file of an identifier that is the only one of its file. *)
  Definition only_file (l : lib) (f : nat) (n : string) : Prop :=
    forall h, In h (hs T l) -> h_name h = n -> h_kind h = KFile -> h_id h = f.
  Lemma close_lib_only l f n b t : ids_ok l -> In (mkHandle f n KFile) (hs T l) -> only_file l f n ->
    live T l n = Some (b, t) ->
    close_lib T l (Some f) =
    mkLib T (if b then upd (disk T l) n (Tree t) else disk T l) (upd (live T l) n None) (filter (other_name n) (hs T l)) (next T l).
  Proof.
    intros [N L] I O V. unfold close_lib. pose proof (in_find l _ N I) as F. simpl in F. rewrite F. simpl.
    set (ids := map h_id (filter (is_group_of n) (hs T l))).
    assert (D : forall h, In h (hs T l) -> In (h_id h) ids -> is_group_of n h = true).
    { intros h J K. apply in_map_iff in K. destruct K as [g [E K]]. apply filter_In in K. destruct K as [K1 K2].
      assert (g = h) by (eapply ids_inj; eauto). subst g. exact K2. }
    assert (D1 : ~ In f ids). { intro K. apply (D _ I) in K. discriminate K. }
    rewrite (close_fold ids (mkHandle f n KFile)).
    2: exact I. 2: exact D1.
    2:{ intros h J K. apply (D h J) in K. unfold is_group_of in K. destruct (h_kind h); [discriminate|]. now apply String.eqb_eq in K. }
    set (l1 := without l _).
    assert (F1 : find_h T l1 f = Some (mkHandle f n KFile)).
    { apply (in_find l1 (mkHandle f n KFile)).
      - apply nodup_filter_map. exact N.
      - apply filter_In. split; [exact I|]. simpl. apply negb_true_iff. apply not_true_iff_false. intro X.
        apply existsb_exists in X. destruct X as [y [Y1 Y2]]. apply Nat.eqb_eq in Y2. subst y. auto. }
    assert (H2 : filter (fun g => negb (h_id g =? f)) (hs T l1) = filter (other_name n) (hs T l)).
    { simpl. rewrite filter_filter. apply filter_ext_in'. intros h J. unfold other_name.
      destruct (h_name h =? n)%string eqn:E; simpl.
      - apply String.eqb_eq in E. destruct (h_kind h) eqn:K.
        + rewrite (O h J E K). rewrite Nat.eqb_refl. apply andb_false_r.
        + replace (existsb (Nat.eqb (h_id h)) ids) with true; [reflexivity|]. symmetry. apply existsb_exists.
          exists (h_id h). split; [|apply Nat.eqb_refl]. apply in_map. apply filter_In. split; [exact J|].
          unfold is_group_of. rewrite K, E. apply String.eqb_refl.
      - apply String.eqb_neq in E. apply andb_true_iff. split; apply negb_true_iff.
        + apply not_true_iff_false. intro X. apply existsb_exists in X. destruct X as [y [Y1 Y2]]. apply Nat.eqb_eq in Y2. subst y.
          apply (D h J) in Y1. unfold is_group_of in Y1. destruct (h_kind h); [discriminate|]. apply String.eqb_eq in Y1. auto.
        + apply Nat.eqb_neq. intro X. apply E. assert (h = mkHandle f n KFile) by (eapply ids_inj; eauto). subst h. reflexivity. }
    unfold close_h. rewrite F1. rewrite H2. change (h_name (mkHandle f n KFile)) with n.
    change (live T l1 n) with (live T l n). rewrite V.
    replace (existsb (fun g => (h_name g =? n)%string) (filter (other_name n) (hs T l))) with false.
    - destruct b; reflexivity.
    - symmetry. apply not_true_iff_false. intro X. apply existsb_exists in X. destruct X as [h [J K]].
      apply filter_In in J. destruct J as [_ J]. unfold other_name in J. rewrite K in J. discriminate.
  Qed.

  (** *** The relation with the world of the user *)
  Definition same (c : content T) (e : entry T) : Prop :=
    match c, e with
    | Nothing, Absent => True | Other b, Plain b' => b = b' | Hdf5 t, Tree t' => t = t'
    | _, _ => False
    end.
  Definition obj_rel (l : lib) (v : view) (o : obj5) : Prop :=
    v_writer v = o_writer o /\
    match v_open v with
    | None => o_file o = None
    | Some (n, q) => exists f c k t, o_file o = Some f /\ o_cur o = Some c /\ In (mkHandle f n KFile) (hs T l) /\
        In (mkHandle c n k) (hs T l) /\ kpath k = q /\ live T l n = Some (o_writer o, t) /\ grp t q = true
    end.
  Record Rel (w : world T) (x : st5) : Prop := mkRel {
    r_ids : ids_ok (s_lib T x);
    r_objs : forall i, match objs T w i, s_objs T x i with
                       | None, None => True
                       | Some v, Some o => obj_rel (s_lib T x) v o
                       | _, _ => False
                       end;
    r_live : forall n, match live T (s_lib T x) n with
                       | Some (b, t) => files T w n = Hdf5 t /\
                           (if b then disk T (s_lib T x) n <> Absent /\ (forall z, disk T (s_lib T x) n <> Plain z) else disk T (s_lib T x) n = Tree t) /\
                           exists i v q, objs T w i = Some v /\ v_open v = Some (n, q)
                       | None => same (files T w n) (disk T (s_lib T x) n)
                       end;
    r_handles : forall h, In h (hs T (s_lib T x)) -> live T (s_lib T x) (h_name h) <> None;
    r_files : forall h, In h (hs T (s_lib T x)) -> h_kind h = KFile ->
                exists i o v q, s_objs T x i = Some o /\ o_file o = Some (h_id h) /\ objs T w i = Some v /\ v_open v = Some (h_name h, q);
    r_alone : forall i j v v' n q q', objs T w i = Some v -> objs T w j = Some v' -> v_open v = Some (n, q) ->
                v_open v' = Some (n, q') -> i = j }.

  Lemma obj_of w x i v : Rel w x -> objs T w i = Some v -> exists o, s_objs T x i = Some o /\ obj_rel (s_lib T x) v o.
  Proof. intros R H. pose proof (r_objs _ _ R i) as O. rewrite H in O. destruct (s_objs T x i) as [o|]; [|destruct O]. eauto. Qed.

  (** A reader or writer closes what it has open. *)
  Lemma rel_close w x i v o : Rel w x -> objs T w i = Some v -> s_objs T x i = Some o ->
    let l := close_lib T (s_lib T x) (o_file o) in
    Rel (seto T w i (Some (mkView (v_writer v) None))) (mkSt T l (uobj (s_objs T x) i (Some (closed o)))).
  Proof.
    intros R Hv Ho l. pose proof (r_objs _ _ R i) as O. rewrite Hv, Ho in O. destruct O as [Ow O].
    destruct (v_open v) as [[n q]|] eqn:V.
    - destruct O as [f [c [k [t [Of [Oc [If [Ic [Ek [Lv G]]]]]]]]]].
      assert (OF : only_file (s_lib T x) f n).
      { intros h J E K. destruct (r_files _ _ R h J K) as [i' [o' [v' [q' [A [B [C D]]]]]]]. rewrite E in D.
        assert (i' = i) by (eapply (r_alone _ _ R); eauto). subst i'. rewrite Ho in A. inversion A; subst o'. congruence. }
      assert (El : l = mkLib T (if o_writer o then upd (disk T (s_lib T x)) n (Tree t) else disk T (s_lib T x))
                 (upd (live T (s_lib T x)) n None) (filter (other_name n) (hs T (s_lib T x))) (next T (s_lib T x))).
      { unfold l. rewrite Of. apply close_lib_only; auto. apply (r_ids _ _ R). }
      clearbody l. subst l. destruct (r_ids _ _ R) as [N L]. constructor; simpl.
      + split; simpl; [now apply nodup_filter_map|]. intros h J. apply filter_In in J. apply L. tauto.
      + intro j. unfold uobj. destruct (Nat.eq_dec j i) as [->|D].
        * rewrite Nat.eqb_refl. split; [exact Ow|reflexivity].
        * destruct (Nat.eqb_neq j i) as [_ E]. rewrite E by exact D. pose proof (r_objs _ _ R j) as O'.
          destruct (objs T w j) as [v'|] eqn:Hv', (s_objs T x j) as [o'|]; auto. destruct O' as [Ow' O']. split; [exact Ow'|].
          destruct (v_open v') as [[n' q']|] eqn:V'; [|exact O'].
          assert (n' <> n). { intro X. subst n'. apply D. eapply (r_alone _ _ R); eauto. }
          destruct O' as [f' [c' [k' [t' [A [B [C [E1 [E2 [E3 E4]]]]]]]]]]. exists f', c', k', t'. simpl.
          repeat apply conj; auto.
          -- apply filter_In. split; [exact C|]. unfold other_name. simpl. apply String.eqb_neq in H. rewrite H. reflexivity.
          -- apply filter_In. split; [exact E1|]. unfold other_name. simpl. apply String.eqb_neq in H. rewrite H. reflexivity.
          -- rewrite upd_other; auto.
      + intro m. pose proof (r_live _ _ R m) as M. destruct (string_dec m n) as [->|D].
        * rewrite upd_same. rewrite Lv in M. destruct M as [M1 [M2 M3]]. rewrite M1. destruct (o_writer o).
          -- rewrite upd_same. reflexivity.
          -- rewrite M2. reflexivity.
        * rewrite (upd_other (live T (s_lib T x))) by exact D.
          replace ((if o_writer o then upd (disk T (s_lib T x)) n (Tree t) else disk T (s_lib T x)) m) with (disk T (s_lib T x) m)
            by (destruct (o_writer o); [rewrite upd_other; auto|reflexivity]).
          destruct (live T (s_lib T x) m) as [[b' t']|]; [|exact M]. destruct M as [M1 [M2 [i' [v' [q' [M3 M4]]]]]].
          split; [exact M1|]. split; [exact M2|]. exists i', v', q'. destruct (Nat.eq_dec i' i) as [->|]; [|auto].
          rewrite Hv in M3. inversion M3; subst v'. rewrite V in M4. inversion M4. congruence.
      + intros h J. apply filter_In in J. destruct J as [J K]. unfold other_name in K. apply negb_true_iff, String.eqb_neq in K.
        rewrite upd_other by exact K. apply (r_handles _ _ R h J).
      + intros h J K. apply filter_In in J. destruct J as [J K1]. unfold other_name in K1. apply negb_true_iff, String.eqb_neq in K1.
        destruct (r_files _ _ R h J K) as [i' [o' [v' [q' [A [B [C D]]]]]]]. exists i', o', v', q'. unfold uobj.
        destruct (Nat.eq_dec i' i) as [->|D'].
        * rewrite Hv in C. inversion C; subst v'. rewrite V in D. inversion D. congruence.
        * apply Nat.eqb_neq in D'. rewrite D'. auto.
      + intros i1 j1 v1 v2 n' q1 q2 A B C D. destruct (Nat.eq_dec i1 i); [inversion A; subst v1; discriminate|].
        destruct (Nat.eq_dec j1 i); [inversion B; subst v2; discriminate|]. eapply (r_alone _ _ R); eauto.
    - assert (El : l = s_lib T x) by (unfold l; rewrite O; reflexivity). clearbody l. subst l. constructor; simpl.
      + apply (r_ids _ _ R).
      + intro j. unfold uobj. destruct (Nat.eq_dec j i) as [->|D].
        * rewrite Nat.eqb_refl. split; [exact Ow|reflexivity].
        * apply Nat.eqb_neq in D. rewrite D. apply (r_objs _ _ R j).
      + intro m. pose proof (r_live _ _ R m) as M. destruct (live T (s_lib T x) m) as [[b' t']|]; [|exact M].
        destruct M as [M1 [M2 [i' [v' [q' [M3 M4]]]]]]. split; [exact M1|]. split; [exact M2|]. exists i', v', q'.
        destruct (Nat.eq_dec i' i) as [->|]; [|auto]. rewrite Hv in M3. inversion M3; subst v'. congruence.
      + apply (r_handles _ _ R).
      + intros h J K. destruct (r_files _ _ R h J K) as [i' [o' [v' [q' [A [B [C D]]]]]]]. exists i', o', v', q'. unfold uobj.
        destruct (Nat.eq_dec i' i) as [->|D']; [rewrite Hv in C; inversion C; subst v'; congruence|].
        apply Nat.eqb_neq in D'. rewrite D'. auto.
      + intros i1 j1 v1 v2 n' q1 q2 A B C D. destruct (Nat.eq_dec i1 i); [inversion A; subst v1; discriminate|].
        destruct (Nat.eq_dec j1 i); [inversion B; subst v2; discriminate|]. eapply (r_alone _ _ R); eauto.
  Qed.

  (** An object that has nothing open opens a file that nobody has open. *)
  Lemma rel_opened w x i v o n t w' x' d' : Rel w x -> objs T w i = Some v -> v_open v = None -> s_objs T x i = Some o ->
    live T (s_lib T x) n = None -> grp t [] = true ->
    (forall m, m <> n -> files T w' m = files T w m) -> files T w' n = Hdf5 t ->
    (forall j, j <> i -> objs T w' j = objs T w j) -> objs T w' i = Some (mkView (v_writer v) (Some (n, []))) ->
    (forall m, m <> n -> d' m = disk T (s_lib T x) m) ->
    (if o_writer o then d' n <> Absent /\ (forall z, d' n <> Plain z) else d' n = Tree t) ->
    s_lib T x' = snd (add_h T (mkLib T d' (upd (live T (s_lib T x)) n (Some (o_writer o, t))) (hs T (s_lib T x)) (next T (s_lib T x))) n KFile) ->
    (forall j, j <> i -> s_objs T x' j = s_objs T x j) ->
    s_objs T x' i = Some (mkObj (o_writer o) (Some (next T (s_lib T x))) (Some (next T (s_lib T x)))) ->
    Rel w' x'.
  Proof.
    intros R Hv V Ho Ln G F1 F2 W1 W2 D1 D2 El S1 S2. destruct (r_ids _ _ R) as [N L].
    pose proof (r_objs _ _ R i) as O. rewrite Hv, Ho in O. destruct O as [Ow O]. rewrite V in O.
    assert (NN : forall h, In h (hs T (s_lib T x)) -> h_name h <> n).
    { intros h J E. apply (r_handles _ _ R h J). rewrite E. exact Ln. }
    assert (NO : forall j v' q, objs T w j = Some v' -> v_open v' <> Some (n, q)).
    { intros j v' q A B. destruct (obj_of w x j v' R A) as [o' [A1 [_ A2]]]. rewrite B in A2.
      destruct A2 as [? [? [? [? [_ [_ [_ [_ [_ [A2 _]]]]]]]]]]. congruence. }
    simpl in El. constructor; rewrite ?El; simpl.
    - split; simpl.
      + constructor; [|exact N]. intro J. apply in_map_iff in J. destruct J as [h [E J]]. apply L in J. rewrite E in J. lia.
      + intros h [<-|J]; simpl; [lia|]. apply L in J. lia.
    - intro j. destruct (Nat.eq_dec j i) as [->|D].
      + rewrite W2, S2. split; [exact Ow|]. simpl. exists (next T (s_lib T x)), (next T (s_lib T x)), KFile, t.
        rewrite upd_same. repeat apply conj; auto.
      + rewrite (W1 j D), (S1 j D). pose proof (r_objs _ _ R j) as O'. destruct (objs T w j) as [v'|] eqn:Hv', (s_objs T x j) as [o'|]; auto.
        destruct O' as [Ow' O']. split; [exact Ow'|]. destruct (v_open v') as [[n' q']|] eqn:V'; [|exact O'].
        destruct O' as [f' [c' [k' [t' [A [B [C [E1 [E2 [E3 E4]]]]]]]]]]. exists f', c', k', t'. simpl. repeat apply conj; auto.
        rewrite upd_other; [exact E3|]. intro X. subst n'. congruence.
    - intro m. destruct (string_dec m n) as [->|D].
      + rewrite upd_same. split; [exact F2|]. split; [exact D2|]. exists i, (mkView (v_writer v) (Some (n, []))), []. auto.
      + rewrite upd_other by exact D. rewrite (F1 m D), (D1 m D). pose proof (r_live _ _ R m) as M.
        destruct (live T (s_lib T x) m) as [[b' t']|]; [|exact M]. destruct M as [M1 [M2 [i' [v' [q' [M3 M4]]]]]].
        split; [exact M1|]. split; [exact M2|]. exists i', v', q'. split; [|exact M4]. rewrite W1; [exact M3|].
        intro X. subst i'. congruence.
    - intros h [<-|J]; simpl.
      + rewrite upd_same. discriminate.
      + rewrite upd_other by (apply NN; exact J). apply (r_handles _ _ R h J).
    - intros h [<-|J] K; simpl in *.
      + exists i, (mkObj (o_writer o) (Some (next T (s_lib T x))) (Some (next T (s_lib T x)))), (mkView (v_writer v) (Some (n, []))), []. auto.
      + destruct (r_files _ _ R h J K) as [i' [o' [v' [q' [A [B [C E]]]]]]]. exists i', o', v', q'.
        assert (i' <> i) by (intro X; subst i'; congruence). rewrite S1, W1 by assumption. auto.
    - intros i1 j1 v1 v2 n' q1 q2 A B C D. destruct (Nat.eq_dec i1 i) as [->|D3], (Nat.eq_dec j1 i) as [->|D4]; auto.
      + rewrite W2 in A. rewrite W1 in B by exact D4. inversion A; subst v1. simpl in C. inversion C; subst n' q1.
        exfalso. eapply NO; eauto.
      + rewrite W2 in B. rewrite W1 in A by exact D3. inversion B; subst v2. simpl in D. inversion D; subst n' q2.
        exfalso. eapply NO; eauto.
      + rewrite W1 in A, B by assumption. eapply (r_alone _ _ R); eauto.
  Qed.

  (** *** The working group *)
  Hypothesis root : forall t, grp t [] = true.
  Hypothesis up : forall t p, grp t p = true -> grp t (removelast p) = true.

  (** What an object needs to have file [n] open with working group [q]. *)
  Definition At (l : lib) (o : obj5) (f : nat) (n : string) (q : path) (b : bool) (t : T) : Prop :=
    ids_ok l /\ o_file o = Some f /\ In (mkHandle f n KFile) (hs T l) /\ live T l n = Some (b, t) /\ grp t q = true /\
    exists c k, o_cur o = Some c /\ In (mkHandle c n k) (hs T l) /\ kpath k = q.
  (** A change of the groups that are open in file [n]. *)
  Definition moves (n : string) (l l' : lib) : Prop :=
    disk T l' = disk T l /\ live T l' = live T l /\ next T l <= next T l' /\
    (forall h, h_name h <> n \/ h_kind h = KFile -> In h (hs T l') <-> In h (hs T l)) /\
    (forall h, In h (hs T l') -> h_name h = n \/ In h (hs T l)).
  Lemma moves_refl n l : moves n l l.
  Proof. repeat split; auto; tauto. Qed.
  Lemma moves_trans n a b c : moves n a b -> moves n b c -> moves n a c.
  Proof.
    intros [A1 [A2 [A3 [A4 A5]]]] [B1 [B2 [B3 [B4 B5]]]]. split; [congruence|]. split; [congruence|]. split; [lia|]. split.
    - intros h H. rewrite (B4 h H). apply A4. exact H.
    - intros h H. destruct (B5 h H); auto.
  Qed.
  Lemma add_ids l n k : ids_ok l -> ids_ok (snd (add_h T l n k)).
  Proof.
    intros [N L]. split; simpl.
    - constructor; [|exact N]. intro J. apply in_map_iff in J. destruct J as [h [E J]]. apply L in J. rewrite E in J. lia.
    - intros h [<-|J]; simpl; [lia|]. apply L in J. lia.
  Qed.
  Lemma add_moves l n p : moves n l (snd (add_h T l n (KGroup p))).
  Proof.
    split; [reflexivity|]. split; [reflexivity|]. split; [simpl; lia|]. split.
    - intros h H. simpl. split; [|auto]. intros [<-|J]; [|exact J]. simpl in H. destruct H; [congruence|discriminate].
    - intros h [<-|J]; auto.
  Qed.
  Lemma pwd_at l o f n q b t : At l o f n q b t -> pwd5 T l o = Some q.
  Proof.
    intros [[N L] [_ [_ [_ [_ [c [k [C [I K]]]]]]]]]. unfold pwd5. rewrite C. unfold h5_name.
    pose proof (in_find l _ N I) as F. simpl in F. rewrite F. simpl. 
 destruct k; simpl in K; subst;
 reflexivity.
  Qed.
  Lemma pop_at l o f n q b t : At l o f n q b t ->
    exists l1 o1, pop5 T grp l o = Some (l1, o1) /\ At l1 o1 f n (removelast q) b t /\ moves n l l1 /\ o_writer o1 = o_writer o /\
      (forall h, In h (hs T l) -> o_cur o <> Some (h_id h) -> In h (hs T l1)) /\
      (forall c, o_cur o1 = Some c -> o_cur o = Some c \/ next T l <= c).
  Proof.
    intro A. pose proof (pwd_at _ _ _ _ _ _ _ A) as P. unfold pop5. rewrite P.
    destruct A as [[N L] [OF [IF [LV [G [c [k [C [I K]]]]]]]]]. rewrite C, OF.
    destruct (at_root q) eqn:AR.
    - destruct q; [|discriminate]. exists l, o. split; [reflexivity|]. split.
      + split; [split; auto|]. split; [exact OF|]. split; [exact IF|]. split; [exact LV|]. split; [exact G|]. exists c, k. auto.
      + split; [apply moves_refl|]. split; [reflexivity|]. split; [auto|]. intros c1 E. left. rewrite <- C, <- E. reflexivity.
    - assert (c <> f).
      { intro X. subst c. pose proof (ids_inj l _ _ N I IF eq_refl) as E. inversion E; subst k. simpl in K. subst q. discriminate. }
      rewrite (close_keep l c (mkHandle f n KFile)); [|exact IF|simpl; auto|].
      2:{ intros h J. apply find_in in J. destruct J as [J E]. simpl.
          assert (h = mkHandle c n k) by (eapply ids_inj; eauto). subst h. reflexivity. }
      set (l0 := without l _).
      assert (N0 : ids_ok l0). { split; [now apply nodup_filter_map|]. intros h J. apply filter_In in J. apply L. tauto. }
      assert (I0 : In (mkHandle f n KFile) (hs T l0)).
      { apply filter_In. split; [exact IF|]. simpl. apply negb_true_iff, Nat.eqb_neq. auto. }
      unfold h5_gopen. pose proof (in_find l0 _ (proj1 N0) I0) as F. cbv [h_id] in F. rewrite F. simpl h_name.
      change (live T l0 n) with (live T l n). rewrite LV. rewrite (up t q G).
      eexists; eexists. split; [reflexivity|]. split; [|split; [|split; [reflexivity|split]]].
      + split; [apply (add_ids l0 n (KGroup (removelast q)) N0)|]. split; [reflexivity|]. split; [right; exact I0|].
        split; [exact LV|]. split; [apply up; exact G|]. exists (next T l), (KGroup (removelast q)).
        split; [reflexivity|]. split; [left; reflexivity|reflexivity].
      + apply moves_trans with l0; [|apply add_moves]. split; [reflexivity|]. split; [reflexivity|]. split; [simpl; lia|]. split.
        * intros h H1. simpl. rewrite filter_In. split; [tauto|]. intro J. split; [exact J|]. apply negb_true_iff, Nat.eqb_neq.
          intro X. assert (h = mkHandle c n k) by (eapply ids_inj; eauto). subst h. simpl in H1. destruct H1 as [H1|H1]; [congruence|].
          subst k. simpl in K. subst q. discriminate.
        * intros h J. apply filter_In in J. tauto.
      + intros h J D. right. apply filter_In. split; [exact J|]. apply negb_true_iff, Nat.eqb_neq. congruence.
      + simpl. intros c' E. inversion E. right. subst. simpl. lia.
  Qed.
  Lemma pops_at k : forall l o f n q b t, At l o f n q b t ->
    exists l1 o1 q1, pops T grp k l o = Some (l1, o1) /\ At l1 o1 f n q1 b t /\ moves n l l1 /\ o_writer o1 = o_writer o /\
      (forall h, In h (hs T l) -> o_cur o <> Some (h_id h) -> In h (hs T l1)).
  Proof.
    induction k as [|k IH]; intros l o f n q b t A.
    - exists l, o, q. simpl. split; [reflexivity|]. split; [exact A|]. split; [apply moves_refl|]. auto.
    - simpl. destruct (pop_at _ _ _ _ _ _ _ A) as [l1 [o1 [E [A1 [M1 [W1 [H1 C1]]]]]]]. rewrite E.
      destruct (IH _ _ _ _ _ _ _ A1) as [l2 [o2 [q2 [E2 [A2 [M2 [W2 H2]]]]]]]. exists l2, o2, q2.
      split; [exact E2|]. split; [exact A2|]. split; [eapply moves_trans; eauto|]. split; [congruence|].
      intros h J D. apply H2; [apply H1; auto|]. intro X. destruct (C1 _ X) as [Y|Y]; [auto|].
      destruct A as [[_ L] _]. apply L in J. lia.
  Qed.
  Lemma cd_at l o f n q b t p : At l o f n q b t ->
    exists l1 o1, cd5 T grp l o p = Some (l1, o1) /\ At l1 o1 f n (if grp t p then p else q) b t /\ moves n l l1 /\ o_writer o1 = o_writer o.
  Proof.
    intro A. unfold cd5. rewrite (pwd_at _ _ _ _ _ _ _ A). pose proof A as A'.
    destruct A as [[N L] [OF [IF [LV [G [c [k [C [I K]]]]]]]]]. rewrite C.
    unfold peq. destruct (list_eq_dec string_dec p q) as [->|D].
    - exists l, o. rewrite G. split; [reflexivity|]. split; [exact A'|]. split; [apply moves_refl|reflexivity].
    - unfold h5_gopen. pose proof (in_find l _ N I) as F. simpl in F. rewrite F. simpl h_name. rewrite LV.
      destruct (grp t p) eqn:GP.
      2:{ exists l, o. split; [reflexivity|]. split; [exact A'|]. split; [apply moves_refl|reflexivity]. }
      simpl add_h. cbv iota beta. unfold add_h. set (l1 := mkLib _ _ _ _ _).
      assert (A1 : At l1 o f n q b t).
      { split; [apply (add_ids l n (KGroup p)); split; auto|]. split; [exact OF|]. split; [right; exact IF|].
        split; [exact LV|]. split; [exact G|]. exists c, k. split; [exact C|]. split; [right; exact I|exact K]. }
      assert (Ig : In (mkHandle (next T l) n (KGroup p)) (hs T l1)) by (left; reflexivity).
      assert (Dc : o_cur o <> Some (h_id (mkHandle (next T l) n (KGroup p)))).
      { simpl. intro X. rewrite C in X. inversion X. apply L in I. simpl in I. lia. }
      assert (M1 : moves n l l1) by apply add_moves.
      clearbody l1. simpl.
      match goal with |- context [if ?X then pops _ _ _ _ _ else _] => destruct X end.
      + destruct (pops_at (length q) _ _ _ _ _ _ _ A1) as [l2 [o2 [q2 [E2 [A2 [M2 [W2 H2]]]]]]]. rewrite E2.
        eexists; eexists. split; [reflexivity|]. split; [|split; [eapply moves_trans; eauto|exact W2]].
        destruct A2 as [I2 [OF2 [IF2 [LV2 _]]]]. split; [exact I2|]. split; [exact OF2|]. split; [exact IF2|]. split; [exact LV2|].
        split; [exact GP|]. exists (next T l), (KGroup p). split; [reflexivity|]. split; [apply H2; auto|reflexivity].
      + eexists; eexists. split; [reflexivity|]. split; [|split; [exact M1|reflexivity]].
        destruct A1 as [I2 [OF2 [IF2 [LV2 _]]]]. split; [exact I2|]. split; [exact OF2|]. split; [exact IF2|]. split; [exact LV2|].
        split; [exact GP|]. exists (next T l), (KGroup p). auto.
  Qed.
  Lemma at_of w x i v o n q : Rel w x -> objs T w i = Some v -> s_objs T x i = Some o -> v_open v = Some (n, q) ->
    exists f t, At (s_lib T x) o f n q (o_writer o) t.
  Proof.
    intros R Hv Ho V. pose proof (r_objs _ _ R i) as O. rewrite Hv, Ho in O. destruct O as [Ow O]. rewrite V in O.
    destruct O as [f [c [k [t [A [B [C [E1 [E2 [E3 E4]]]]]]]]]]. exists f, t.
    split; [apply (r_ids _ _ R)|]. repeat (split; [eassumption|]). exists c, k. auto.
  Qed.
  (** The working group of an object changes. *)
  Lemma rel_move w x i v o n q q' l' o' f t w' : Rel w x -> objs T w i = Some v -> s_objs T x i = Some o -> v_open v = Some (n, q) ->
    moves n (s_lib T x) l' -> At l' o' f n q' (o_writer o) t -> o_writer o' = o_writer o -> o_file o = Some f ->
    (forall m, files T w' m = files T w m) -> (forall j, j <> i -> objs T w' j = objs T w j) ->
    objs T w' i = Some (mkView (v_writer v) (Some (n, q'))) ->
    Rel w' (mkSt T l' (uobj (s_objs T x) i (Some o'))).
  Proof.
    intros R Hv Ho V [M1 [M2 [M3 [M4 M5]]]] A W OF F1 W1 W2. destruct A as [I' [OF' [IF' [LV' [G' [c [k [C [I K]]]]]]]]].
    pose proof (r_objs _ _ R i) as O. rewrite Hv, Ho in O. destruct O as [Ow _].
    constructor; simpl.
    - exact I'.
    - intro j. unfold uobj. destruct (Nat.eq_dec j i) as [->|D].
      + rewrite Nat.eqb_refl, W2. split; [simpl; congruence|]. simpl. exists f, c, k, t. rewrite W. repeat (split; auto).
      + destruct (Nat.eqb_neq j i) as [_ E]. rewrite E by exact D. rewrite W1 by exact D. pose proof (r_objs _ _ R j) as O'.
        destruct (objs T w j) as [v'|] eqn:Hv', (s_objs T x j) as [oo|]; auto. destruct O' as [Ow' O']. split; [exact Ow'|].
        destruct (v_open v') as [[n' q'']|] eqn:V'; [|exact O'].
        assert (n' <> n). { intro X. subst n'. apply D. eapply (r_alone _ _ R); eauto. }
        destruct O' as [f' [c' [k' [t' [A1 [A2 [A3 [A4 [A5 [A6 A7]]]]]]]]]]. exists f', c', k', t'. rewrite M2.
        repeat apply conj; auto; apply M4; auto.
    - intro m. rewrite M1, M2, F1. pose proof (r_live _ _ R m) as M. destruct (live T (s_lib T x) m) as [[b' t']|]; [|exact M].
      destruct M as [Ma [Mb [i' [v' [q'' [Mc Md]]]]]]. split; [exact Ma|]. split; [exact Mb|].
      destruct (Nat.eq_dec i' i) as [->|D].
      + rewrite Hv in Mc. inversion Mc; subst v'. rewrite V in Md. inversion Md; subst m q''.
        exists i, (mkView (v_writer v) (Some (n, q'))), q'. auto.
      + exists i', v', q''. rewrite W1 by exact D. auto.
    - intros h J. rewrite M2. destruct (M5 h J) as [E|J'].
      + rewrite E. rewrite <- M2. congruence.
      + apply (r_handles _ _ R h J').
    - intros h J Kf. apply M4 in J; [|auto]. destruct (r_files _ _ R h J Kf) as [i' [oo [v' [q'' [A1 [A2 [A3 A4]]]]]]].
      unfold uobj. destruct (Nat.eq_dec i' i) as [->|D].
      + exists i, o', (mkView (v_writer v) (Some (n, q'))), q'. rewrite Nat.eqb_refl, W2.
        rewrite Ho in A1. inversion A1; subst oo. rewrite Hv in A3. inversion A3; subst v'. rewrite V in A4. inversion A4.
        repeat split; congruence.
      + exists i', oo, v', q''. rewrite W1 by exact D. apply Nat.eqb_neq in D. rewrite D. auto.
    - intros i1 j1 v1 v2 n' q1 q2 A1 B1 C1 D1.
      assert (P : forall i0 v0 q0, objs T w' i0 = Some v0 -> v_open v0 = Some (n', q0) -> exists v3 q3, objs T w i0 = Some v3 /\ v_open v3 = Some (n', q3)).
      { intros i0 v0 q0 X Y. destruct (Nat.eq_dec i0 i) as [->|D].
        - rewrite W2 in X. inversion X; subst v0. simpl in Y. inversion Y; subst. eauto.
        - rewrite W1 in X by exact D. eauto. }
      destruct (P _ _ _ A1 C1) as [v3 [q3 [X1 X2]]]. destruct (P _ _ _ B1 D1) as [v4 [q4 [Y1 Y2]]].
      eapply (r_alone _ _ R); eauto.
  Qed.

  (** *** Steps *)
  (** Other worlds and states with the same objects and files. *)
  Lemma rel_ext w x w' x' : Rel w x -> (forall n, files T w' n = files T w n) -> (forall i, objs T w' i = objs T w i) ->
    s_lib T x' = s_lib T x -> (forall i, s_objs T x' i = s_objs T x i) -> Rel w' x'.
  Proof.
    intros R F W El S. constructor; rewrite ?El.
    - apply (r_ids _ _ R).
    - intro i. rewrite W, S. apply (r_objs _ _ R i).
    - intro n. rewrite F. pose proof (r_live _ _ R n) as M. destruct (live T (s_lib T x) n) as [[b t]|]; [|exact M].
      destruct M as [A [B [i [v [q [C D]]]]]]. split; [exact A|]. split; [exact B|]. exists i, v, q. rewrite W. auto.
    - apply (r_handles _ _ R).
    - intros h J K. destruct (r_files _ _ R h J K) as [i [o [v [q A]]]]. exists i, o, v, q. rewrite W, S. exact A.
    - intros i j v v' n q q'. rewrite !W. apply (r_alone _ _ R).
  Qed.
  (** An object with nothing open comes or goes. *)
  Lemma rel_set w x i (vo : option view) (oo : option obj5) : Rel w x ->
    match objs T w i with Some v => v_open v = None | None => True end ->
    match vo, oo with
    | None, None => True
    | Some v, Some o => v_writer v = o_writer o /\ v_open v = None /\ o_file o = None
    | _, _ => False
    end -> Rel (seto T w i vo) (mkSt T (s_lib T x) (uobj (s_objs T x) i oo)).
  Proof.
    intros R H1 H2. constructor; simpl.
    - apply (r_ids _ _ R).
    - intro j. unfold uobj. destruct (Nat.eq_dec j i) as [->|D].
      + rewrite Nat.eqb_refl. destruct vo as [v|], oo as [o|]; auto. destruct H2 as [A [B C]]. split; [exact A|]. rewrite B. exact C.
      + apply Nat.eqb_neq in D. rewrite D. apply (r_objs _ _ R j).
    - intro n. pose proof (r_live _ _ R n) as M. destruct (live T (s_lib T x) n) as [[b t]|]; [|exact M].
      destruct M as [A [B [j [v [q [C D]]]]]]. split; [exact A|]. split; [exact B|]. exists j, v, q.
      destruct (Nat.eq_dec j i) as [->|]; [|auto]. rewrite C in H1. congruence.
    - apply (r_handles _ _ R).
    - intros h J K. destruct (r_files _ _ R h J K) as [j [o [v [q [A [B [C D]]]]]]]. exists j, o, v, q. unfold uobj.
      destruct (Nat.eq_dec j i) as [->|E]; [rewrite C in H1; congruence|]. apply Nat.eqb_neq in E. rewrite E. auto.
    - intros i1 j1 v1 v2 n q1 q2 A B C D.
      destruct (Nat.eq_dec i1 i). { subst i1. destruct vo as [v|]; [|discriminate]. inversion A; subst v1. destruct oo; [|destruct H2]. destruct H2 as [_ [H2 _]]. congruence. }
      destruct (Nat.eq_dec j1 i). { subst j1. destruct vo as [v|]; [|discriminate]. inversion B; subst v2. destruct oo; [|destruct H2]. destruct H2 as [_ [H2 _]]. congruence. }
      eapply (r_alone _ _ R); eauto.
  Qed.
  (** Files that no writer has open are on the disk. *)
  Lemma rel_disk w x n : Rel w x -> (forall i v q, objs T w i = Some v -> v_writer v = true -> v_open v <> Some (n, q)) ->
    same (files T w n) (disk T (s_lib T x) n).
  Proof.
    intros R H. pose proof (r_live _ _ R n) as M. destruct (live T (s_lib T x) n) as [[b t]|] eqn:L; [|exact M].
    destruct M as [A [B [i [v [q [C D]]]]]]. destruct (obj_of w x i v R C) as [o [E [F G]]]. rewrite D in G.
    destruct G as [? [? [? [t' [_ [_ [_ [_ [_ [G _]]]]]]]]]]. rewrite L in G. inversion G; subst b.
    destruct (o_writer o) eqn:W; [exfalso; eapply H; eauto; congruence|]. rewrite A, B. reflexivity.
  Qed.
  Lemma not_live w x n : Rel w x -> (forall i v q, objs T w i = Some v -> v_open v <> Some (n, q)) -> live T (s_lib T x) n = None.
  Proof.
    intros R H. pose proof (r_live _ _ R n) as M. destruct (live T (s_lib T x) n) as [[b t]|] eqn:L; [|reflexivity].
    destruct M as [_ [_ [i [v [q [C D]]]]]]. exfalso. eapply H; eauto.
  Qed.

  Definition op_of (a : act T) : op5 T :=
    match a with
    | AMake w i => New w i | ARead i n => OpenR i n | AWrite i n tr => OpenW i n tr | AClose i => Close i
    | AEnd i => Destroy i | AGo i p => Cd i p | AUp i => Pop i | AEdit i f => Edit i f
    end.
  Definition saved (w : world T) (d : string -> entry T) : Prop :=
    forall n, (forall i v q, objs T w i = Some v -> v_writer v = true -> v_open v <> Some (n, q)) -> same (files T w n) (d n).

  Lemma step_rel w x a r : Rel w x -> proper T grp w a -> does T empty grp w a = Some r ->
    match r with
    | Goes w' => exists x', step5 T empty grp x (op_of a) = Fine x' /\ Rel w' x'
    | Stops w' => exists d, step5 T empty grp x (op_of a) = Exit d /\ saved w' d
    end.
  Proof.
    intros R P D. destruct a as [wr i|i n|i n tr|i|i|i p|i|i f]; simpl in D, P |- *.
    - (* AMake *)
      destruct (objs T w i) as [v|] eqn:Hv; [discriminate|]. inversion D; subst r.
      pose proof (r_objs _ _ R i) as O. rewrite Hv in O. destruct (s_objs T x i) as [o|] eqn:Ho; [destruct O|].
      eexists. split; [reflexivity|]. apply rel_set; [exact R|rewrite Hv; exact I|]. simpl. auto.
    - (* ARead *)
      destruct (objs T w i) as [[[|] vo]|] eqn:Hv; try discriminate. inversion D; subst r; clear D.
      destruct (obj_of w x i _ R Hv) as [o [Ho [Ow O]]]. rewrite Ho. simpl in Ow. rewrite <- Ow.
      pose proof (rel_close w x i _ o R Hv Ho) as R1. simpl in R1.
      set (l := close_lib T (s_lib T x) (o_file o)) in *. unfold open_reader. fold l.
      set (x1 := mkSt T l (uobj (s_objs T x) i (Some (closed o)))) in *. set (w1 := seto T w i (Some (mkView false None))) in *.
      assert (NO : forall j v q, objs T w1 j = Some v -> v_open v <> Some (n, q)).
      { intros j v q A. simpl in A. destruct (Nat.eq_dec j i) as [->|E]; [inversion A; discriminate|]. eapply P; eauto. }
      pose proof (not_live _ _ n R1 NO) as NL. simpl in NL.
      assert (SD : same (files T w n) (disk T l n)) by (apply (rel_disk w1 x1 n R1); intros; eapply NO; eauto).
      unfold check_exists, exists_file, is_hdf5.
      destruct (files T w n) as [|bb|t] eqn:FN, (disk T l n) as [|bb'|t'|] eqn:DN; try destruct SD; simpl.
      + eexists. split; [reflexivity|]. exact (fun m H => rel_disk w1 x1 m R1 H).
      + eexists. split; [reflexivity|]. exact (fun m H => rel_disk w1 x1 m R1 H).
      + unfold h5_fopen. rewrite NL, DN. simpl. eexists. split; [reflexivity|].
        apply (rel_opened w1 x1 i (mkView false None) (closed o) n t _ _ (disk T l)); simpl; auto.
        * destruct (Nat.eq_dec i i); [reflexivity|contradiction].
        * unfold uobj. rewrite Nat.eqb_refl. reflexivity.
        * intros j E. destruct (Nat.eq_dec j i); [contradiction|reflexivity].
        * destruct (Nat.eq_dec i i); [reflexivity|contradiction].
        * rewrite <- Ow. exact DN.
        * rewrite <- Ow. reflexivity.
        * intros j E. unfold uobj. apply Nat.eqb_neq in E. rewrite E. reflexivity.
        * unfold uobj. rewrite Nat.eqb_refl. reflexivity.
    - (* AWrite *)
      destruct (objs T w i) as [[[|] vo]|] eqn:Hv; try discriminate. inversion D; subst r; clear D.
      destruct (obj_of w x i _ R Hv) as [o [Ho [Ow O]]]. rewrite Ho. simpl in Ow. rewrite <- Ow.
      pose proof (rel_close w x i _ o R Hv Ho) as R1. simpl in R1.
      set (l := close_lib T (s_lib T x) (o_file o)) in *. unfold open_writer. fold l.
      set (x1 := mkSt T l (uobj (s_objs T x) i (Some (closed o)))) in *. set (w1 := seto T w i (Some (mkView true None))) in *.
      assert (NO : forall j v q, objs T w1 j = Some v -> v_open v <> Some (n, q)).
      { intros j v q A. simpl in A. destruct (Nat.eq_dec j i) as [->|E]; [inversion A; discriminate|]. eapply P; eauto. }
      pose proof (not_live _ _ n R1 NO) as NL. simpl in NL.
      assert (SD : same (files T w n) (disk T l n)) by (apply (rel_disk w1 x1 n R1); intros; eapply NO; eauto).
      assert (MK : forall w' d' t, (forall m, m <> n -> files T w' m = files T w m) -> files T w' n = Hdf5 t ->
          (forall j, objs T w' j = objs T (seto T w1 i (Some (mkView true (Some (n, []))))) j) ->
          (forall m, m <> n -> d' m = disk T l m) -> d' n <> Absent /\ (forall z, d' n <> Plain z) ->
          Rel w' (mkSt T (snd (add_h T (mkLib T d' (upd (live T l) n (Some (true, t))) (hs T l) (next T l)) n KFile))
             (uobj (s_objs T x) i (Some (mkObj (o_writer o) (Some (next T l)) (Some (next T l))))))).
      { intros w' d' t A1 A2 A3 A4 A5. apply (rel_opened w1 x1 i (mkView true None) (closed o) n t _ _ d'); simpl; auto.
        - destruct (Nat.eq_dec i i); [reflexivity|contradiction].
        - unfold uobj. rewrite Nat.eqb_refl. reflexivity.
        - intros j E. rewrite A3. simpl. destruct (Nat.eq_dec j i); [contradiction|reflexivity].
        - rewrite A3. simpl. destruct (Nat.eq_dec i i); [reflexivity|contradiction].
        - rewrite <- Ow. exact A5.
        - rewrite <- Ow. reflexivity.
        - intros j E. unfold uobj. apply Nat.eqb_neq in E. rewrite E. reflexivity.
        - unfold uobj. rewrite Nat.eqb_refl. reflexivity. }
      assert (TORN : forall d : string -> entry T, upd d n Torn n <> Absent /\ forall z, upd d n Torn n <> Plain z).
      { intro d. rewrite upd_same. split; [|intro]; discriminate. }
      unfold exists_file, is_hdf5.
      destruct (files T w n) as [|bb|t] eqn:FN, (disk T l n) as [|bb'|t'|] eqn:DN; try destruct SD; simpl.
      + unfold h5_fcreate. rewrite NL, DN. simpl. eexists. split; [reflexivity|]. apply (MK _ (upd (disk T l) n Torn) empty); auto.
        * intros m E. simpl. destruct (string_dec m n); [contradiction|reflexivity].
        * simpl. destruct (string_dec n n); [reflexivity|contradiction].
        * intros m E. apply upd_other. exact E.
      + destruct tr.
        * unfold h5_fcreate. simpl. rewrite NL, upd_same. simpl. eexists. split; [reflexivity|]. apply (MK _ (upd (upd (disk T l) n Absent) n Torn) empty); auto.
          -- intros m E. simpl. destruct (string_dec m n); [contradiction|reflexivity].
          -- simpl. destruct (string_dec n n); [reflexivity|contradiction].
          -- intros m E. rewrite !upd_other by exact E. reflexivity.
        * eexists. split; [reflexivity|]. exact (fun m H => rel_disk w1 x1 m R1 H).
      + destruct tr.
        * unfold h5_fcreate. rewrite NL. simpl. eexists. split; [reflexivity|]. apply (MK _ (upd (disk T l) n Torn) empty); auto.
          -- intros m E. simpl. destruct (string_dec m n); [contradiction|reflexivity].
          -- simpl. destruct (string_dec n n); [reflexivity|contradiction].
          -- intros m E. apply upd_other. exact E.
        * unfold h5_fopen. rewrite NL, DN. simpl. eexists. split; [reflexivity|]. apply (MK _ (disk T l) t); auto.
          rewrite DN. split; [|intro]; discriminate.
    - (* AClose *)
      destruct (objs T w i) as [v|] eqn:Hv; [|discriminate]. inversion D; subst r; clear D.
      destruct (obj_of w x i _ R Hv) as [o [Ho _]]. rewrite Ho. eexists. split; [reflexivity|]. apply rel_close; auto.
    - (* AEnd *)
      destruct (objs T w i) as [v|] eqn:Hv; [|discriminate]. inversion D; subst r; clear D.
      destruct (obj_of w x i _ R Hv) as [o [Ho _]]. rewrite Ho. eexists. split; [reflexivity|].
      pose proof (rel_close w x i v o R Hv Ho) as R1. simpl in R1.
      eapply rel_ext; [apply (rel_set _ _ i None None R1)| | | |].
      + simpl. destruct (Nat.eq_dec i i); [reflexivity|contradiction].
      + exact I.
      + reflexivity.
      + intro j. simpl. destruct (Nat.eq_dec j i); reflexivity.
      + reflexivity.
      + intro j. simpl. unfold uobj. destruct (j =? i); reflexivity.
    - (* AGo *)
      destruct (objs T w i) as [[wr [[n q]|]]|] eqn:Hv; try discriminate. destruct (files T w n) as [| |t] eqn:FN; try discriminate.
      inversion D; subst r; clear D. destruct (obj_of w x i _ R Hv) as [o [Ho [Ow _]]]. rewrite Ho.
      destruct (at_of w x i _ o n q R Hv Ho eq_refl) as [f [t0 A]].
      assert (t0 = t). { destruct A as [_ [_ [_ [LV _]]]]. pose proof (r_live _ _ R n) as M. rewrite LV in M. destruct M as [M _]. congruence. }
      subst t0. destruct (cd_at _ _ _ _ _ _ _ p A) as [l1 [o1 [E [A1 [M W]]]]]. rewrite E. simpl.
      eexists. split; [reflexivity|]. assert (OF : o_file o = Some f) by apply A.
      destruct (grp t p) eqn:G.
      + eapply (rel_move w x i _ o n q p l1 o1 f t); eauto; simpl; auto.
        * intros j Z. destruct (Nat.eq_dec j i); [contradiction|reflexivity].
        * destruct (Nat.eq_dec i i); [reflexivity|contradiction].
      + eapply (rel_move w x i _ o n q q l1 o1 f t); eauto; simpl; auto.
    - (* AUp *)
      destruct (objs T w i) as [[wr [[n q]|]]|] eqn:Hv; try discriminate.
      inversion D; subst r; clear D. destruct (obj_of w x i _ R Hv) as [o [Ho [Ow _]]]. rewrite Ho.
      destruct (at_of w x i _ o n q R Hv Ho eq_refl) as [f [t A]].
      destruct (pop_at _ _ _ _ _ _ _ A) as [l1 [o1 [E [A1 [M [W _]]]]]]. rewrite E. simpl.
      eexists. split; [reflexivity|]. assert (OF : o_file o = Some f) by apply A.
      eapply (rel_move w x i _ o n q (removelast q) l1 o1 f t); eauto; simpl; auto.
      + intros j Z. destruct (Nat.eq_dec j i); [contradiction|reflexivity].
      + destruct (Nat.eq_dec i i); [reflexivity|contradiction].
    - (* AEdit *)
      destruct (objs T w i) as [[[|] [[n q]|]]|] eqn:Hv; try discriminate. destruct (files T w n) as [| |t] eqn:FN; try discriminate.
      inversion D; subst r; clear D. destruct (obj_of w x i _ R Hv) as [o [Ho [Ow O]]]. rewrite Ho. simpl in Ow. rewrite <- Ow. simpl.
      simpl in O. destruct O as [f0 [c [k [t0 [OF [OC [I1 [I2 [K [LV G]]]]]]]]]]. rewrite OC.
      destruct (r_ids _ _ R) as [N L]. pose proof (in_find _ _ N I2) as F. simpl in F. rewrite F. simpl h_name. rewrite LV, <- Ow.
      assert (t0 = t). { pose proof (r_live _ _ R n) as M. rewrite LV in M. destruct M as [M _]. congruence. }
      subst t0. eexists. split; [reflexivity|]. constructor; simpl.
      + split; auto.
      + intro j. pose proof (r_objs _ _ R j) as O'. destruct (objs T w j) as [v'|] eqn:Hv', (s_objs T x j) as [o'|] eqn:Ho'; auto.
        destruct O' as [Ow' O']. split; [exact Ow'|]. destruct (v_open v') as [[n' q']|] eqn:V'; [|exact O'].
        destruct O' as [f' [c' [k' [t' [A1 [A2 [A3 [A4 [A5 [A6 A7]]]]]]]]]]. simpl.
        destruct (string_dec n' n) as [->|Dn].
        * rewrite A6 in LV. inversion LV as [[H1 H2]]. subst t'. exists f', c', k', (f t). rewrite upd_same.
          repeat apply conj; auto. f_equal. f_equal. congruence.
        * exists f', c', k', t'. rewrite upd_other by exact Dn. repeat apply conj; auto.
      + intro m. destruct (string_dec m n) as [->|Dm].
        * rewrite !upd_same. split; [reflexivity|]. split; [split; [|intro]; discriminate|]. exists i, (mkView true (Some (n, q))), q. auto.
        * rewrite !upd_other by exact Dm. apply (r_live _ _ R m).
      + intros h J. destruct (string_dec (h_name h) n) as [->|Dm]; [rewrite upd_same; discriminate|]. rewrite upd_other by exact Dm.
        apply (r_handles _ _ R h J).
      + apply (r_files _ _ R).
      + apply (r_alone _ _ R).
  Qed.
  Lemma run_rel w acts r : history T empty grp w acts r -> forall x, Rel w x ->
    match r with
    | Goes w' => exists x', run5 T empty grp x (map op_of acts) = Fine x' /\ Rel w' x'
    | Stops w' => exists d, run5 T empty grp x (map op_of acts) = Exit d /\ saved w' d
    end.
  Proof.
    intro H. induction H as [w|w a as' w' P D|w a as' w' r P D H IH]; intros x R.
    - exists x. split; [reflexivity|exact R].
    - destruct (step_rel w x a _ R P D) as [d [E S]]. exists d. split; [|exact S]. simpl. rewrite E. reflexivity.
    - destruct (step_rel w x a _ R P D) as [x1 [E R1]]. simpl. rewrite E. apply IH. exact R1.
  Qed.

  (** *** What closing does in any state *)
  Lemma close_h_in l id h : In h (hs T (close_h T l id)) -> In h (hs T l) /\ h_id h <> id.
  Proof.
    unfold close_h. destruct (find_h T l id) as [g|] eqn:F.
    - intro J. assert (K : In h (filter (fun g0 => negb (h_id g0 =? id)) (hs T l))).
      { destruct (existsb _ _); [exact J|]. destruct (live T l (h_name g)) as [[[|] t]|]; exact J. }
      apply filter_In in K. destruct K as [K1 K2]. split; [exact K1|]. apply negb_true_iff, Nat.eqb_neq in K2. exact K2.
    - intro J. split; [exact J|]. eapply find_none_in; eauto.
  Qed.
  Lemma close_fold_in ids h : forall l, In h (hs T (fold_left (close_h T) ids l)) -> In h (hs T l) /\ ~ In (h_id h) ids.
  Proof.
    induction ids as [|i ids IH]; intros l J; [simpl in J; split; [exact J|intros []]|].
    simpl in J. destruct (IH _ J) as [A B]. destruct (close_h_in _ _ _ A) as [C D]. split; [exact C|]. intros [E|E]; auto.
  Qed.
  Lemma close_lib_gone l f h c g : find_h T l f = Some h -> find_h T l c = Some g ->
    c = f \/ (h_name g = h_name h /\ h_kind g <> KFile) -> find_h T (close_lib T l (Some f)) c = None.
  Proof.
    intros F C O. apply find_none_of. intros k J E. unfold close_lib in J. rewrite F in J.
    apply close_h_in in J. destruct J as [J D]. apply close_fold_in in J. destruct J as [J K].
    destruct O as [->|[N G]]; [auto|]. apply K. rewrite E. apply find_in in C. destruct C as [C1 C2]. rewrite <- C2.
    apply in_map. apply filter_In. split; [exact C1|]. unfold is_group_of. destruct (h_kind g); [congruence|].
    rewrite N. apply String.eqb_refl.
  Qed.
  Lemma lost x i o c : s_objs T x i = Some o -> o_cur o = Some c -> find_h T (s_lib T x) c = None ->
    sees T x i = None /\ step5 T empty grp x (Pop i) = Wrong /\ (forall p, step5 T empty grp x (Cd i p) = Wrong) /\
    (forall f, step5 T empty grp x (Edit i f) = Wrong).
  Proof.
    intros O C F. unfold sees, step5, moved, pop5, cd5, pwd5, h5_name. rewrite O, C, F. repeat split.
    intro f. destruct (o_writer o); reflexivity.
  Qed.
End Proofs.

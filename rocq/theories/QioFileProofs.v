From Coq Require Import List Bool Arith NArith Lia.
From Verif Require Import QioFileSpec QioFileModel.
Import ListNotations.

(** ** Lists *)
Section Put.
  Context {A : Type}.
  Lemma put_length : forall (l : list A) i v, length (put l i v) = length l.
  Proof. induction l; destruct i; cbn; intros; auto. Qed.
  Lemma put_at : forall (l : list A) i v j,
    nth_error (put l i v) j = if (j =? i) then match nth_error l j with Some _ => Some v | None => None end
                              else nth_error l j.
  Proof.
    induction l as [|a l IH]; intros i v j.
    - destruct i, j; cbn; try reflexivity; destruct (_ =? _); reflexivity.
    - destruct i, j; cbn; try reflexivity. apply IH.
  Qed.
  Lemma put_same : forall (l : list A) i v x, nth_error l i = Some x -> nth_error (put l i v) i = Some v.
  Proof. intros l i v x E. rewrite put_at, Nat.eqb_refl, E. reflexivity. Qed.
  Lemma put_other : forall (l : list A) i v j, j <> i -> nth_error (put l i v) j = nth_error l j.
  Proof. intros l i v j N. rewrite put_at. destruct (Nat.eqb_spec j i); [contradiction | reflexivity]. Qed.
  Lemma end_at : forall (l : list A) v j,
    nth_error (l ++ [v]) j = if (j =? length l) then Some v else nth_error l j.
  Proof.
    intros l v j. destruct (Nat.eqb_spec j (length l)) as [->|N].
    - rewrite nth_error_app2 by lia. rewrite Nat.sub_diag. reflexivity.
    - destruct (Nat.lt_ge_cases j (length l)) as [L|L].
      + apply nth_error_app1. exact L.
      + transitivity (@None A).
        * apply nth_error_None. rewrite app_length. cbn. lia.
        * symmetry. apply nth_error_None. lia.
  Qed.
End Put.

Tactic Notation "case_at" constr(x) constr(y) ident(N) :=
  destruct (Nat.eq_dec x y) as [N|N];
  [ subst x; rewrite ?Nat.eqb_refl in * | rewrite ?(proj2 (Nat.eqb_neq x y) N) in * ].

Section Proofs.
  Context {H D : Type}.
  Local Notation world := (world H D).
  Local Notation state := (state H D).
  Local Notation hstate := (hstate H D).

  Definition h_of (f : sfile H D) : hstate := match f with Rd p rest => HRead p rest | Wr p rs => HWrite p rs end.
  Definition k_of (f : sfile H D) : kind := match f with Rd _ _ => Reader | Wr _ _ => Writer end.

  (** An object of the model stands for an object of the specification. *)
  Definition stands (l : list hstate) (a : sobj H D) (b : obj) : Prop :=
    o_kind b = s_kind a /\
    match s_file a with
    | None => o_iop b = false
    | Some f => o_iop b = true /\ s_kind a = k_of f /\
                (exists h, o_h b = Some h /\ nth_error l h = Some (h_of f)) /\
                (exists st, o_state b = Some st /\ negb (st =? 0)%N = s_bad a)
    end.

  Definition holds (w : world) (o h : nat) : Prop :=
    exists b, nth_error (objs w) o = Some (Some b) /\ o_iop b = true /\ o_h b = Some h.

  Record agrees (s : state) (w : world) : Prop := {
    ag_disk : disk w = s_disk s;
    ag_len : length (objs w) = length (s_objs s);
    ag_none : forall o, nth_error (s_objs s) o = Some None -> nth_error (objs w) o = Some None;
    ag_some : forall o a, nth_error (s_objs s) o = Some (Some a) ->
              exists b, nth_error (objs w) o = Some (Some b) /\ stands (hs w) a b;
    ag_one : forall o o' h, holds w o h -> holds w o' h -> o = o';
    ag_leak : forall h st, nth_error (hs w) h = Some st -> st <> HGone -> exists o, holds w o h }.

  Lemma agrees_start : forall d, agrees (start d) (world0 d).
  Proof.
    intro d. split; cbn; try reflexivity.
    - intros [|o] E; discriminate.
    - intros [|o] a E; discriminate.
    - intros o o' h (b & E & _). destruct o; discriminate.
    - intros [|h] st E; discriminate.
  Qed.

  Lemma the_some : forall s w o a, agrees s w -> the s o = Some a ->
    exists b, obj_at w o = Some b /\ nth_error (objs w) o = Some (Some b) /\
              nth_error (s_objs s) o = Some (Some a) /\ stands (hs w) a b.
  Proof.
    intros s w o a G T. unfold the in T.
    destruct (nth_error (s_objs s) o) as [[a'|]|] eqn:E; try discriminate. injection T as ->.
    destruct (ag_some _ _ G _ _ E) as (b & E' & S). exists b. unfold obj_at. rewrite E'. auto.
  Qed.

  (** One object changes; the handles of the others stay. *)
  Lemma agrees_change : forall s w o a b a' b' d l,
    agrees s w ->
    nth_error (s_objs s) o = Some (Some a) -> nth_error (objs w) o = Some (Some b) ->
    (forall h, o_iop b' = true -> o_h b' = Some h -> (o_iop b = true /\ o_h b = Some h) \/ h = length (hs w)) ->
    (forall h, h < length (hs w) -> ~ (o_iop b = true /\ o_h b = Some h) -> nth_error l h = nth_error (hs w) h) ->
    stands l a' b' ->
    (forall h st, nth_error l h = Some st -> st <> HGone ->
       (exists st0, nth_error (hs w) h = Some st0 /\ st0 <> HGone /\ ~ (o_iop b = true /\ o_h b = Some h)) \/
       (o_iop b' = true /\ o_h b' = Some h)) ->
    agrees {| s_disk := d; s_objs := put (s_objs s) o (Some a') |}
           {| disk := d; hs := l; objs := put (objs w) o (Some b') |}.
  Proof.
    intros s w o a b a' b' d l G Es Eo Hh Hl St Hk.
    assert (Hold : forall o' h, o' <> o -> holds {| disk := d; hs := l; objs := put (objs w) o (Some b') |} o' h -> holds w o' h).
    { intros o' h N (c & E & I & Hc). cbn in E. rewrite put_other in E by exact N. exists c. auto. }
    assert (Hnew : forall h, holds {| disk := d; hs := l; objs := put (objs w) o (Some b') |} o h ->
              o_iop b' = true /\ o_h b' = Some h).
    { intros h (c & E & I & Hc). cbn in E. rewrite (put_same _ _ _ _ Eo) in E. injection E as <-. auto. }
    assert (Hlt : forall o' h, o' <> o -> holds w o' h -> h < length (hs w) /\ ~ (o_iop b = true /\ o_h b = Some h)).
    { intros o' h N Hd. split.
      - destruct Hd as (c & E & I & Hc).
        destruct (nth_error (s_objs s) o') as [[a1|]|] eqn:E1.
        + destruct (ag_some _ _ G _ _ E1) as (c' & E2 & St1). rewrite E in E2. injection E2 as <-.
          destruct St1 as [_ St1]. destruct (s_file a1).
          * destruct St1 as (_ & _ & (h' & Hh' & N') & _). rewrite Hc in Hh'. injection Hh' as <-.
            apply nth_error_Some. rewrite N'. discriminate.
          * congruence.
        + rewrite (ag_none _ _ G _ E1) in E. discriminate.
        + apply nth_error_None in E1. rewrite <- (ag_len _ _ G) in E1. apply nth_error_None in E1. congruence.
      - intros [I Hc]. apply N. apply (ag_one _ _ G _ _ h Hd). exists b. auto. }
    split; cbn.
    - reflexivity.
    - rewrite !put_length. apply (ag_len _ _ G).
    - intros o' E. rewrite put_at in E; rewrite put_at. case_at o' (o) N.
      + rewrite Es in E. discriminate.
      + apply (ag_none _ _ G _ E).
    - intros o' a1 E. rewrite put_at in E; rewrite put_at. case_at o' (o) N.
      + rewrite Es in E. injection E as <-. rewrite Eo. exists b'. auto.
      + destruct (ag_some _ _ G _ _ E) as (c & E1 & [K S]). exists c. split; [exact E1|]. split; [exact K|].
        destruct (s_file a1) as [f|]; [|exact S]. destruct S as (I & Kf & (h & Hc & N1) & Sb).
        split; [exact I|]. split; [exact Kf|]. split; [|exact Sb]. exists h. split; [exact Hc|].
        assert (Hd : holds w o' h) by (exists c; auto).
        destruct (Hlt _ _ N Hd) as [L Nb]. rewrite (Hl h L Nb). exact N1.
    - intros o1 o2 h H1 H2. destruct (Nat.eq_dec o1 o) as [->|N1], (Nat.eq_dec o2 o) as [->|N2]; auto.
      + exfalso. destruct (Hnew _ H1) as [I1 Hc1]. destruct (Hlt _ _ N2 (Hold _ _ N2 H2)) as [L Nb].
        destruct (Hh _ I1 Hc1) as [C| ->]; [contradiction | lia].
      + exfalso. destruct (Hnew _ H2) as [I1 Hc1]. destruct (Hlt _ _ N1 (Hold _ _ N1 H1)) as [L Nb].
        destruct (Hh _ I1 Hc1) as [C| ->]; [contradiction | lia].
      + apply (ag_one _ _ G _ _ h (Hold _ _ N1 H1) (Hold _ _ N2 H2)).
    - intros h st E N. destruct (Hk _ _ E N) as [(st0 & E0 & N0 & Nb) | [I Hc]].
      + destruct (ag_leak _ _ G _ _ E0 N0) as (o' & Hd).
        assert (No : o' <> o). { intros ->. destruct Hd as (c & Ec & Ic & Hc). rewrite Eo in Ec. injection Ec as <-. apply Nb. auto. }
        exists o'. destruct Hd as (c & Ec & Ic & Hc). exists c. cbn. rewrite put_other by exact No. auto.
      + exists o. exists b'. cbn. rewrite (put_same _ _ _ _ Eo). auto.
  Qed.

  Lemma agrees_end : forall s w a b,
    agrees s w -> stands (hs w) a b -> o_iop b = false ->
    agrees {| s_disk := s_disk s; s_objs := s_objs s ++ [Some a] |}
           {| disk := disk w; hs := hs w; objs := objs w ++ [Some b] |}.
  Proof.
    intros s w a b G St I.
    assert (Hb : forall o h, holds {| disk := disk w; hs := hs w; objs := objs w ++ [Some b] |} o h <-> holds w o h).
    { intros o h. unfold holds. cbn. rewrite end_at. case_at o (length (objs w)) N.
      - split; intros (c & E & Ic & Hc).
        + injection E as <-. congruence.
        + assert (nth_error (objs w) (length (objs w)) = None) as X by (apply nth_error_None; lia). congruence.
      - reflexivity. }
    split; cbn.
    - apply (ag_disk _ _ G).
    - rewrite !app_length, (ag_len _ _ G). reflexivity.
    - intros o E. rewrite end_at in E; rewrite end_at. rewrite (ag_len _ _ G). destruct (o =? _); [discriminate|].
      apply (ag_none _ _ G _ E).
    - intros o a1 E. rewrite end_at in E; rewrite end_at. rewrite (ag_len _ _ G). destruct (o =? _).
      + injection E as <-. exists b. auto.
      + apply (ag_some _ _ G _ _ E).
    - intros o o' h A B. apply Hb in A. apply Hb in B. apply (ag_one _ _ G _ _ h A B).
    - intros h st E N. destruct (ag_leak _ _ G _ _ E N) as (o & Hd). exists o. apply Hb. exact Hd.
  Qed.

  (** A closed object is destroyed. *)
  Lemma agrees_drop : forall s w o a b,
    agrees s w -> nth_error (s_objs s) o = Some (Some a) -> nth_error (objs w) o = Some (Some b) -> o_iop b = false ->
    agrees {| s_disk := s_disk s; s_objs := put (s_objs s) o None |}
           {| disk := disk w; hs := hs w; objs := put (objs w) o None |}.
  Proof.
    intros s w o a b G Es Eo I.
    assert (Hb : forall o' h, holds {| disk := disk w; hs := hs w; objs := put (objs w) o None |} o' h <-> holds w o' h).
    { intros o' h. unfold holds. cbn. rewrite put_at. case_at o' (o) N; [|reflexivity].
      rewrite Eo. split; intros (c & E & Ic & Hc); congruence. }
    split; cbn.
    - apply (ag_disk _ _ G).
    - rewrite !put_length. apply (ag_len _ _ G).
    - intros o' E. rewrite put_at in E; rewrite put_at. case_at o' (o) N.
      + rewrite Eo. reflexivity.
      + apply (ag_none _ _ G _ E).
    - intros o' a1 E. rewrite put_at in E; rewrite put_at. case_at o' (o) N.
      + rewrite Es in E. discriminate.
      + apply (ag_some _ _ G _ _ E).
    - intros o1 o2 h A B. apply Hb in A. apply Hb in B. apply (ag_one _ _ G _ _ h A B).
    - intros h st E N. destruct (ag_leak _ _ G _ _ E N) as (o' & Hd). exists o'. apply Hb. exact Hd.
  Qed.

  (** close() *)
  Lemma close_agrees : forall s w o a,
    agrees s w -> the s o = Some a ->
    exists w', close_obj w o true = Some w' /\
      agrees {| s_disk := closed_disk s a; s_objs := put (s_objs s) o (Some (with_file a None)) |} w' /\
      exists b', nth_error (objs w') o = Some (Some b') /\ o_iop b' = false.
  Proof.
    intros s w o a G T. destruct (the_some _ _ _ _ G T) as (b & E & Eo & Es & [K S]).
    unfold close_obj. rewrite E. destruct (s_file a) as [f|] eqn:F.
    - destruct S as (I & Kf & (h & Hc & N) & _). rewrite I.
      unfold qio_close, handle_at. rewrite Hc, N.
      assert (K' : o_kind b = k_of f) by congruence. rewrite K'.
      assert (Go : forall d k, o_kind b = k -> agrees {| s_disk := d; s_objs := put (s_objs s) o (Some (with_file a None)) |}
         {| disk := d; hs := put (hs w) h HGone;
            objs := put (objs w) o (Some {| o_kind := k; o_state := Some badbit; o_iop := false; o_h := Some h |}) |}).
      { intros d k Hk. apply (agrees_change s w o a b); auto.
        - cbn. discriminate.
        - intros h' L Nb. apply put_other. intros ->. apply Nb. auto.
        - split; cbn; congruence.
        - intros h' st E' N'. left. rewrite put_at in E'. case_at h' h Nh.
          + rewrite N in E'. injection E' as <-. congruence.
          + exists st. split; [exact E'|]. split; [exact N'|]. intros [_ X]. congruence. }
      destruct f as [p rest|p rs]; cbn [h_of k_of] in *; eexists; (split; [reflexivity|]); (split; [|cbn; rewrite (put_same _ _ _ _ Eo); eexists; split; reflexivity]).
      + unfold closed_disk. rewrite F, <- (ag_disk _ _ G). apply Go. exact K'.
      + unfold closed_disk. rewrite F, <- (ag_disk _ _ G). apply Go. exact K'.
    - rewrite S. eexists. split; [reflexivity|]. split.
      + unfold closed_disk. rewrite F, (ag_disk _ _ G).
        apply (agrees_change s w o a b); auto.
        * cbn. discriminate.
        * split; cbn; congruence.
        * intros h st E' N'. left. exists st. split; [exact E'|]. split; [exact N'|]. intros [X _]. congruence.
      + cbn. rewrite (put_same _ _ _ _ Eo). eexists. split; reflexivity.
  Qed.

  (** open() of a closed object *)
  Lemma open_agrees : forall s w o a b f d,
    agrees s w -> nth_error (s_objs s) o = Some (Some a) -> nth_error (objs w) o = Some (Some b) -> stands (hs w) a b ->
    s_file a = None -> s_kind a = k_of f ->
    agrees {| s_disk := d; s_objs := put (s_objs s) o (Some {| s_kind := s_kind a; s_file := Some f; s_bad := false |}) |}
           {| disk := d; hs := hs w ++ [h_of f]; objs := put (objs w) o (Some (opened b (length (hs w)))) |}.
  Proof.
    intros s w o a b f d G Es Eo [K S] F Kf. rewrite F in S.
    apply (agrees_change s w o a b); auto.
    - intros h _ E. cbn in E. injection E as <-. right. reflexivity.
    - intros h L _. rewrite nth_error_app1 by exact L. reflexivity.
    - split; [exact K|]. cbn. split; [reflexivity|]. split; [exact Kf|]. split.
      + exists (length (hs w)). split; [reflexivity|]. rewrite end_at, Nat.eqb_refl. reflexivity.
      + exists goodbit. split; reflexivity.
    - intros h st E N. rewrite end_at in E. case_at h (length (hs w)) Nh.
      + right. split; reflexivity.
      + left. exists st. split; [exact E|]. split; [exact N|]. intros [X _]. congruence.
  Qed.

  (** reading and writing a record *)
  Lemma move_agrees : forall s w o a b f f' h,
    agrees s w -> nth_error (s_objs s) o = Some (Some a) -> nth_error (objs w) o = Some (Some b) -> stands (hs w) a b ->
    s_file a = Some f -> k_of f' = k_of f -> o_h b = Some h ->
    agrees (with_obj s o (Some (with_file a (Some f')))) {| disk := disk w; hs := put (hs w) h (h_of f'); objs := objs w |}.
  Proof.
    intros s w o a b f f' h G Es Eo St F Kf Hh.
    assert (X : agrees {| s_disk := s_disk s; s_objs := put (s_objs s) o (Some (with_file a (Some f'))) |}
       {| disk := s_disk s; hs := put (hs w) h (h_of f'); objs := put (objs w) o (Some b) |}).
    { destruct St as [K S]. rewrite F in S. destruct S as (I & K1 & (h' & Hh' & N) & Sb).
      rewrite Hh in Hh'. injection Hh' as <-.
      apply (agrees_change s w o a b); auto.
      - intros h' L Nb. apply put_other. intros ->. apply Nb. auto.
      - split; [exact K|]. cbn. split; [exact I|]. split; [congruence|]. split; [|exact Sb].
        exists h. split; [exact Hh|]. apply (put_same _ _ _ _ N).
      - intros h' st E' N'. rewrite put_at in E'. case_at h' (h) Nh.
        + right. auto.
        + left. exists st. split; [exact E'|]. split; [exact N'|]. intros [_ C]. congruence. }
    assert (P : put (objs w) o (Some b) = objs w).
    { clear - Eo. revert o Eo. induction (objs w) as [|c l IH]; intros [|o] Eo; cbn in *; try congruence.
      f_equal. apply IH. exact Eo. }
    rewrite P in X. rewrite (ag_disk _ _ G). exact X.
  Qed.

  Lemma reads_not : forall s w p, agrees s w -> is_read s p = false -> existsb (h_reads p) (hs w) = false.
  Proof.
    intros s w p G R. destruct (existsb (h_reads p) (hs w)) eqn:E; [|reflexivity]. exfalso.
    apply existsb_exists in E. destruct E as (st & In & P).
    destruct st as [q rest|q rs|]; try discriminate. cbn in P.
    apply In_nth_error in In. destruct In as (h & N).
    destruct (ag_leak _ _ G _ _ N) as (o & b & Eo & I & Hh); [discriminate|].
    destruct (nth_error (s_objs s) o) as [[a|]|] eqn:E1.
    - destruct (ag_some _ _ G _ _ E1) as (b' & E2 & [K S]). rewrite Eo in E2. injection E2 as <-.
      destruct (s_file a) as [f|] eqn:F; [|congruence]. destruct S as (_ & _ & (h' & Hh' & N') & _).
      rewrite Hh in Hh'. injection Hh' as <-. rewrite N in N'. destruct f; cbn in N'; try discriminate.
      injection N' as <- <-.
      assert (X : is_read s p = true).
      { apply existsb_exists. exists (Some a). split; [apply (nth_error_In _ _ E1)|]. rewrite F. exact P. }
      congruence.
    - rewrite (ag_none _ _ G _ E1) in Eo. discriminate.
    - apply nth_error_None in E1. rewrite <- (ag_len _ _ G) in E1. apply nth_error_None in E1. congruence.
  Qed.

  Lemma closed_none : forall (s : state) a, s_file a = None -> closed_disk s a = s_disk s.
  Proof. intros s a F. unfold closed_disk. rewrite F. reflexivity. Qed.
  Lemma agrees_eta : forall s w, agrees s w -> agrees {| s_disk := s_disk s; s_objs := s_objs s |} w.
  Proof. intros [d l] w G. exact G. Qed.

  Lemma step_follows : forall excl s w x,
    agrees s w -> careful_step s x = true ->
    match spec_step excl s x, step excl w x with
    | SRan s' y, Ran w' y' => y' = y /\ agrees s' w'
    | SStop s', Stop w' => agrees s' w'
    | _, _ => False
    end.
  Proof.
    intros excl s w x G C. destruct x as [k|o p|o p m|o ok|o ok|o|o|o r ok|o|o|o|o bd|o]; cbn [careful_step spec_step step] in *.
    - split; [reflexivity|]. apply agrees_end; auto. split; reflexivity.
    - destruct (the s o) as [a|] eqn:T; [|discriminate].
      destruct (the_some _ _ _ _ G T) as (b & E & Eo & Es & St). rewrite E.
      apply andb_prop in C. destruct C as [C C3]. apply andb_prop in C. destruct C as [C1 C2].
      pose proof St as [K S]. rewrite K. destruct (s_kind a) eqn:Ka; [|discriminate].
      destruct (s_file a) eqn:F; [discriminate|]. rewrite (closed_none _ _ F), (ag_disk _ _ G).
      destruct (s_disk s p) as [[rs|]|] eqn:Dp; [|discriminate|exact (agrees_eta _ _ G)].
      split; [reflexivity|]. rewrite <- Ka.
      apply (open_agrees s w o a b (Rd p rs) (s_disk s) G Es Eo); auto.
    - destruct (the s o) as [a|] eqn:T; [|discriminate].
      destruct (the_some _ _ _ _ G T) as (b & E & Eo & Es & St). rewrite E.
      apply andb_prop in C. destruct C as [C C4]. apply andb_prop in C. destruct C as [C C3].
      apply andb_prop in C. destruct C as [C1 C2].
      pose proof St as [K S]. rewrite K. destruct (s_kind a) eqn:Ka; [discriminate|].
      destruct (s_file a) eqn:F; [discriminate|]. apply negb_true_iff in C4.
      rewrite (closed_none _ _ F), (reads_not _ _ _ G C4), (ag_disk _ _ G).
      assert (Go : forall rs, agrees
        {| s_disk := upd (s_disk s) p (Some Unfinished);
           s_objs := put (s_objs s) o (Some {| s_kind := Writer; s_file := Some (Wr p rs); s_bad := false |}) |}
        {| disk := upd (s_disk s) p (Some Unfinished); hs := hs w ++ [HWrite p rs];
           objs := put (objs w) o (Some (opened b (length (hs w)))) |}).
      { intro rs. rewrite <- Ka. apply (open_agrees s w o a b (Wr p rs) _ G Es Eo); auto. }
      destruct (s_disk s p) as [[rs|]|] eqn:Dp; [|discriminate|].
      + destruct m; cbn.
        * destruct excl; [exact (agrees_eta _ _ G)|]. split; [reflexivity|]. apply Go.
        * split; [reflexivity|]. apply Go.
        * split; [reflexivity|]. apply Go.
      + destruct m; cbn; (split; [reflexivity|]; apply Go).
    - destruct (the s o) as [a|] eqn:T; [|discriminate]. rewrite C.
      destruct (close_agrees _ _ _ _ G T) as (w' & -> & G' & _). split; [reflexivity|exact G'].
    - destruct (the s o) as [a|] eqn:T; [|discriminate]. rewrite C.
      destruct (close_agrees _ _ _ _ G T) as (w' & -> & G' & b' & Eb & Ib). split; [reflexivity|].
      destruct (the_some _ _ _ _ G T) as (b & E & Eo & Es & St).
      pose proof (agrees_drop _ _ o _ _ G' (put_same _ _ _ _ Es) Eb Ib) as X. cbn in X.
      assert (P : forall (l : list (option (sobj H D))) i u v, put (put l i u) i v = put l i v).
      { clear. induction l as [|c l IH]; intros [|i] u v; cbn; congruence. }
      rewrite P in X. exact X.
    - destruct (the s o) as [a|] eqn:T; [|discriminate].
      destruct (the_some _ _ _ _ G T) as (b & E & Eo & Es & [K S]). rewrite E.
      destruct (s_file a) as [[p rest|p rs]|] eqn:F; try discriminate.
      destruct S as (I & Kf & (h & Hh & N) & _). unfold handle_at. rewrite Hh, N, K, Kf. cbn.
      destruct rest; [exact G|]. split; [reflexivity|exact G].
    - destruct (the s o) as [a|] eqn:T; [|discriminate].
      destruct (the_some _ _ _ _ G T) as (b & E & Eo & Es & St). rewrite E. pose proof St as [K S].
      destruct (s_file a) as [[p rest|p rs]|] eqn:F; try discriminate.
      destruct S as (I & Kf & (h & Hh & N) & _). unfold handle_at. rewrite Hh, N, K, Kf. cbn.
      destruct rest; [exact G|]. split; [reflexivity|].
      apply (move_agrees s w o a b (Rd p (e :: rest)) (Rd p rest) h G Es Eo St F eq_refl Hh).
    - destruct (the s o) as [a|] eqn:T; [|discriminate].
      destruct (the_some _ _ _ _ G T) as (b & E & Eo & Es & St). rewrite E. pose proof St as [K S].
      destruct (s_file a) as [[p rest|p rs]|] eqn:F; try discriminate.
      destruct S as (I & Kf & (h & Hh & N) & _). unfold handle_at. rewrite Hh, N, K, Kf. cbn.
      destruct ok; [|exact G]. split; [reflexivity|].
      apply (move_agrees s w o a b (Wr p rs) (Wr p (rs ++ [r])) h G Es Eo St F eq_refl Hh).
    - destruct (the s o) as [a|] eqn:T; [|discriminate].
      destruct (the_some _ _ _ _ G T) as (b & E & Eo & Es & [K S]). rewrite E.
      split; [|exact G]. destruct (s_file a); [destruct S as [S _]|]; rewrite S; reflexivity.
    - destruct (the s o) as [a|] eqn:T; [|discriminate].
      destruct (the_some _ _ _ _ G T) as (b & E & Eo & Es & [K S]). rewrite E, K.
      destruct (s_file a) as [[p rest|p rs]|] eqn:F; try discriminate.
      destruct S as (_ & Kf & _). rewrite Kf. cbn. destruct rest; [discriminate|]. split; [reflexivity|exact G].
    - destruct (the s o) as [a|] eqn:T; [|discriminate].
      destruct (the_some _ _ _ _ G T) as (b & E & Eo & Es & [K S]). rewrite E.
      destruct (s_file a) as [f|] eqn:F; [|discriminate].
      destruct S as (_ & _ & _ & st & Hst & Hb). rewrite Hst. split; [congruence|exact G].
    - destruct (the s o) as [a|] eqn:T; [|discriminate].
      destruct (the_some _ _ _ _ G T) as (b & E & Eo & Es & [K S]). rewrite E. split; [reflexivity|].
      unfold with_obj. rewrite (ag_disk _ _ G). apply (agrees_change s w o a b); auto.
      + split; [exact K|]. cbn. destruct (s_file a) as [f|]; [|exact S].
        destruct S as (I & Kf & Sh & _). split; [exact I|]. split; [exact Kf|]. split; [exact Sh|].
        eexists. split; [reflexivity|]. destruct bd; reflexivity.
      + intros h st E' N'. cbn. destruct (o_iop b) eqn:I.
        * destruct (o_h b) as [h'|] eqn:Hh.
          -- destruct (Nat.eq_dec h' h) as [->|Nh]; [right; auto|]. left. exists st. split; [exact E'|]. split; [exact N'|].
             intros [_ X]. congruence.
          -- left. exists st. split; [exact E'|]. split; [exact N'|]. intros [_ X]. congruence.
        * left. exists st. split; [exact E'|]. split; [exact N'|]. intros [X _]. congruence.
    - discriminate.
  Qed.

  Lemma run_follows : forall excl l s w,
    agrees s w -> careful excl s l = true ->
    match spec_run excl s l, run excl w l with
    | SDone s' ys, Done w' ys' => ys' = ys /\ agrees s' w'
    | SStopped s' ys, Stopped w' ys' => ys' = ys /\ agrees s' w'
    | _, _ => False
    end.
  Proof.
    induction l as [|x l IH]; intros s w G C; cbn.
    - auto.
    - cbn in C. apply andb_prop in C. destruct C as [C1 C2].
      pose proof (step_follows excl s w x G C1) as S.
      destruct (spec_step excl s x) as [s' y|s'], (step excl w x) as [w' y'|w'|]; try contradiction.
      + destruct S as [-> G']. specialize (IH _ _ G' C2).
        destruct (spec_run excl s' l), (run excl w' l); try contradiction; destruct IH as [-> G'']; auto.
      + auto.
  Qed.

  Lemma agrees_closed : forall s w, agrees s w -> all_closed s -> forall h st, nth_error (hs w) h = Some st -> st = HGone.
  Proof.
    intros s w G A h st N.
    assert (Q : st = HGone \/ st <> HGone) by (destruct st; [right|right|left]; congruence).
    destruct Q as [Q|Q]; [exact Q|exfalso].
    destruct (ag_leak _ _ G _ _ N Q) as (o & b & Eo & I & Hh).
    destruct (nth_error (s_objs s) o) as [[a|]|] eqn:E1.
    - destruct (ag_some _ _ G _ _ E1) as (b' & E2 & [K S]). rewrite Eo in E2. injection E2 as <-.
      assert (T : the s o = Some a) by (unfold the; rewrite E1; reflexivity).
      rewrite (A _ _ T) in S. congruence.
    - rewrite (ag_none _ _ G _ E1) in Eo. discriminate.
    - apply nth_error_None in E1. rewrite <- (ag_len _ _ G) in E1. apply nth_error_None in E1. congruence.
  Qed.
End Proofs.

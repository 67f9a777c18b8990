(** From runs of sites to evaluate() over a subset. *)
From Coq Require Import ZArith String List Bool Lia Ring Permutation.
From Verif Require Import Base SetModel SetSpec EvalModel EvalSpec EvalProofs GammaModel KernLang KernSpec.
From Verif Require Import FuseModel FuseSpec FuseTable FuseSite FuseEntries.
Import ListNotations.
Local Open Scope Z_scope.

Definition step_eqb (a b : step) : bool := match a, b with C, C | L, L | FuseModel.R, FuseModel.R => true | _, _ => false end.
Fixpoint path_eqb (p q : path) : bool :=
  match p, q with [], [] => true | a :: p, b :: q => step_eqb a b && path_eqb p q | _, _ => false end.
Definition leaf_eqb (a b : leaf) : bool := match a, b with LReal, LReal | LCplx, LCplx | LVec, LVec => true | _, _ => false end.

(** Locals are made from numbers of the expression; there is at most one; one multiplies or
    divides by numbers. *)
Definition from_operand (sp : special) (a : string) (k : leaf) : bool :=
  match assoc a (s_objs sp) with
  | Some q => negb (String.eqb a "d") && existsb (fun o => path_eqb q (fst o) && leaf_eqb k (snd o)) (operands [] (s_rhs sp))
  | None => false
  end.
Definition regular (sp : special) : bool :=
  forallb (fun sd => match sd with
    | SRef _ | SOne => true
    | SId a | SNeg a | SInv a => from_operand sp a LReal
    | SNegC a => from_operand sp a LCplx end) (map snd (s_scal sp)) &&
  match map snd (s_scal sp) with [] | [_] | [SRef _; SRef _] => true | _ => false end &&
  match s_op sp with OpMultiplyAssign | OpDivideAssign => negb (leaf_eqb (kind (s_rhs sp)) LVec) | _ => true end.
Lemma specials_regular : forallb regular specials = true.
Proof. vm_compute. reflexivity. Qed.

Lemma step_eqb_eq a b : step_eqb a b = true -> a = b.
Proof. destruct a, b; cbn; congruence. Qed.
Lemma path_eqb_eq p q : path_eqb p q = true -> p = q.
Proof.
  revert q. induction p as [|a p IH]; intros [|b q]; cbn; try congruence.
  intros [A B]%andb_prop. apply step_eqb_eq in A. apply IH in B. congruence.
Qed.
Lemma leaf_eqb_eq a b : leaf_eqb a b = true -> a = b.
Proof. destruct a, b; cbn; congruence. Qed.
Lemma from_operand_in sp a k : from_operand sp a k = true ->
  exists q, assoc a (s_objs sp) = Some q /\ String.eqb a "d" = false /\ In (q, k) (operands [] (s_rhs sp)).
Proof.
  unfold from_operand. destruct (assoc a (s_objs sp)) as [q|]; [|discriminate].
  intros [N E]%andb_prop. apply existsb_exists in E. destruct E as ([q' k'] & I & E). cbn [fst snd] in E.
  apply andb_prop in E. destruct E as [E1%path_eqb_eq E2%leaf_eqb_eq]. subst.
  exists q'. repeat split; auto. now apply negb_true_iff in N.
Qed.

Lemma NoDup_app_r {A} (x y : list A) : NoDup (x ++ y) -> NoDup y.
Proof. induction x; cbn; auto. intros H. inversion H; auto. Qed.

Section Fuse.
  Context {R : Type} (rO rI : R) (radd rmul rsub rdiv : R -> R -> R) (ropp : R -> R).
  Context (RT : ring_theory rO rI radd rmul rsub ropp eq).
  Context (DIV : forall x y, rdiv x y = rmul x (rdiv rI y)).
  Variable (d : ptr) (env : path -> ptr) (loc : nat).
  Notation value := (value rO).
  Notation meaning := (meaning rO radd rmul rsub ropp).
  Notation result := (result rO radd rmul rsub rdiv ropp d env).
  Notation ready := (ready rO rI rdiv ropp d env loc).
  Notation does_sites := (does_sites rO rI radd rmul rsub rdiv ropp d env loc).

  (** ** Locality *)
  Definition alike (s : Z) (X Y : @vec R) (k : leaf) : Prop :=
    match k with LVec => forall j, j / 24 = s -> X j = Y j | _ => forall j, X j = Y j end.
  Lemma alike_site s X Y k : alike s X Y k -> forall j, j / 24 = s -> X j = Y j.
  Proof. destruct k; cbn; auto. Qed.

  Lemma meaning_local s (X Y : path -> @vec R) e : forall p,
    (forall q k, In (q, k) (operands p e) -> alike s (X q) (Y q) k) ->
    alike s (meaning X p e) (meaning Y p e) (kind e).
  Proof.
    induction e as [k|op e IH|op l IHl r IHr|]; intros p H.
    - apply H. now left.
    - specialize (IH _ H). cbn [kind]. destruct op; cbn [FuseSpec.meaning]; [exact IH|..].
      + unfold P_plus. destruct (kind e); cbn in *; intros; now rewrite IH.
      + unfold P_minus. destruct (kind e); cbn in *; intros; now rewrite IH.
      + unfold times_i. destruct (kind e); cbn in *; intros; destruct (re_part j) eqn:RE; rewrite ?IH; auto.
        * rewrite (proj1 (re_next _ RE)). auto.
        * rewrite (proj1 (im_prev _ RE)). auto.
    - assert (Hl : alike s (meaning X (p ++ [L]) l) (meaning Y (p ++ [L]) l) (kind l)).
      { apply IHl. intros q k I. apply H. cbn. apply in_or_app. auto. }
      assert (Hr : alike s (meaning X (p ++ [FuseModel.R]) r) (meaning Y (p ++ [FuseModel.R]) r) (kind r)).
      { apply IHr. intros q k I. apply H. cbn. apply in_or_app. auto. }
      clear IHl IHr H. cbn [FuseSpec.meaning kind].
      set (a := meaning X (p ++ [L]) l) in *. set (a' := meaning Y (p ++ [L]) l) in *.
      set (b := meaning X (p ++ [FuseModel.R]) r) in *. set (b' := meaning Y (p ++ [FuseModel.R]) r) in *.
      clearbody a a' b b'. unfold vplus, vminus, g5, scale, cscale.
      destruct op, (kind l), (kind r); cbn [join alike] in *; intros; try reflexivity;
        rewrite ?(Hl j), ?(Hr j), ?(Hl 0), ?(Hl 1), ?(Hr 0), ?(Hr 1) by auto; try reflexivity;
        destruct (re_part j) eqn:RE;
        rewrite ?(Hl (j + 1)), ?(Hr (j + 1)), ?(Hl (j - 1)), ?(Hr (j - 1))
          by (auto; rewrite ?(proj1 (re_next _ RE)), ?(proj1 (im_prev _ RE)); auto); reflexivity.
    - cbn. reflexivity.
  Qed.

  Lemma result_local sp m m1 s j : regular sp = true -> j / 24 = s ->
    alike s (value m1 d) (value m d) LVec ->
    (forall q k, In (q, k) (operands [] (s_rhs sp)) -> alike s (value m1 (env q)) (value m (env q)) k) ->
    result sp m1 j = result sp m j.
  Proof.
    intros Reg J Hd Hq. unfold FuseSite.result.
    pose proof (meaning_local s (fun q => value m1 (env q)) (fun q => value m (env q)) (s_rhs sp) [] Hq) as M.
    generalize dependent (meaning (fun q => value m1 (env q)) [] (s_rhs sp)).
    generalize dependent (meaning (fun q => value m (env q)) [] (s_rhs sp)). intros a' a M. pose proof (alike_site _ _ _ _ M) as Ms.
    unfold regular in Reg. apply andb_prop in Reg. destruct Reg as [_ K].
    destruct (s_op sp); cbn [assigned] in *; unfold vplus, vminus.
    - auto.
    - rewrite Ms, Hd; auto.
    - rewrite Ms, Hd; auto.
    - unfold scale, cscale.
      destruct (kind (s_rhs sp)); cbn in *; try discriminate; rewrite ?(M 0), ?(M 1), ?(Hd j) by auto; try reflexivity.
      destruct (re_part j) eqn:RE; rewrite ?(Hd (j + 1)), ?(Hd (j - 1)); auto.
      + rewrite (proj1 (re_next _ RE)). auto.
      + rewrite (proj1 (im_prev _ RE)). auto.
    - destruct (kind (s_rhs sp)); cbn in *; try discriminate; rewrite ?(M 0), ?(Hd j) by auto; reflexivity.
  Qed.

  (** ** After some sites are done *)
  Lemma stored_elsewhere (m m1 : memory R) t n f p :
    stored m m1 (forward d (24 * t)) (24 * n) f -> apart p d -> forall j, value m1 p j = value m p j.
  Proof.
    intros [_ S] A j. unfold KernSpec.value, cell. rewrite S; [reflexivity|]. cbn. intros [E _]. now apply A.
  Qed.
  Lemma stored_other_site (m m1 : memory R) t n f s :
    stored m m1 (forward d (24 * t)) (24 * n) f -> ~ (t <= s < t + n) ->
    forall j, j / 24 = s -> cell m1 d j = cell m d j.
  Proof.
    intros [_ S] A j J. unfold cell. apply S. cbn [forward fst snd]. intros [_ B].
    apply A. pose proof (Z.div_mod j 24 ltac:(lia)). pose proof (Z.mod_pos_bound j 24 ltac:(lia)). lia.
  Qed.
  Lemma stored_has (m m1 : memory R) q len f p k : stored m m1 q len f -> has m p k -> has m1 p k.
  Proof.
    intros [A B] H i Hi. specialize (H i Hi). unfold cell in *.
    destruct (Nat.eq_dec (fst p) (fst q)) as [E|E].
    - destruct (Z_lt_dec (snd p + i) (snd q)); [rewrite B; auto; lia|].
      destruct (Z_lt_dec (snd p + i) (snd q + len)).
      + specialize (A (snd p + i - snd q) ltac:(lia)). unfold cell in A. rewrite <- E in A.
        replace (snd q + (snd p + i - snd q)) with (snd p + i) in A by lia. congruence.
      + rewrite B; auto. lia.
    - rewrite B; auto. intros [X _]. auto.
  Qed.

  Lemma ready_after V sp m m1 t n f : regular sp = true -> ready V sp m ->
    stored m m1 (forward d (24 * t)) (24 * n) f -> ready V sp m1.
  Proof.
    intros Reg [(Hd & Hdl & Ho) Hl] S. split; [split; [|split]|].
    - eapply stored_has; eauto.
    - exact Hdl.
    - intros q k I. destruct (Ho q k I) as [A B]. split; [exact A|].
      destruct k; destruct B as [B1 B2]; (split; [eapply stored_has; eauto|exact B2]).
    - unfold regular in Reg. apply andb_prop in Reg. destruct Reg as [Reg _]. apply andb_prop in Reg. destruct Reg as [Reg _].
      rewrite forallb_forall in Reg. rewrite Forall_forall in *. intros sd I. specialize (Reg _ I). specialize (Hl _ I).
      assert (L : forall k, m1 loc k = m loc k).
      { intros k. destruct S as [_ S]. apply S. cbn. intros [E _]. congruence. }
      assert (V' : forall a k, from_operand sp a k = true -> k <> LVec -> forall j,
        match assoc a (s_objs sp) with Some q => value m1 (env q) j | None => rO end =
        match assoc a (s_objs sp) with Some q => value m (env q) j | None => rO end).
      { intros a k F NV j. destruct (from_operand_in _ _ _ F) as (q & -> & _ & I').
        eapply stored_elsewhere; [eassumption|]. destruct (Ho _ _ I') as [_ B]. destruct k; tauto. }
      destruct sd; cbn [local_ok] in *; rewrite ?L; auto.
      + rewrite (V' _ LReal); auto. discriminate.
      + rewrite (V' _ LReal); auto. discriminate.
      + rewrite (V' _ LReal); auto. discriminate.
      + rewrite !(V' _ LCplx); auto; discriminate.
  Qed.

  (** ** A sequence of calls *)
  Notation in_order := (@in_order R).
  Definition zseq (t n : Z) : list nat := List.seq (Z.to_nat t) (Z.to_nat n).
  Lemma in_zseq t n i : 0 <= t -> In i (zseq t n) <-> t <= Z.of_nat i < t + n.
  Proof. intros. unfold zseq. rewrite in_seq. lia. Qed.

  Lemma in_order_ok {A} V sp (f : A -> memory R -> res (memory R)) (T N : A -> Z) : regular sp = true -> forall l m,
    ready V sp m ->
    (forall a, In a l -> 0 <= T a /\ 0 <= N a /\ does_sites V sp (T a) (N a) (f a)) ->
    NoDup (concat (map (fun a => zseq (T a) (N a)) l)) ->
    exists m', in_order f l m = Val m' /\
      assigned_at m m' d (concat (map (fun a => zseq (T a) (N a)) l)) (result sp m).
  Proof.
    intros Reg. induction l as [|a l IH]; intros m Rd H ND.
    - exists m. split; [reflexivity|]. split; [intros i j []|reflexivity].
    - cbn [map concat] in *. destruct (H a (or_introl eq_refl)) as (T0 & N0 & Da).
      destruct (Da m Rd) as (m1 & E1 & S1).
      pose proof (ready_after _ _ _ _ _ _ _ Reg Rd S1) as Rd1.
      destruct (IH m1 Rd1) as (m' & E' & A' & B'); [intros; apply H; now right|eapply NoDup_app_r; eauto|].
      exists m'. split; [cbn [FuseModel.in_order]; now rewrite E1|].
      assert (Dis : forall i, In i (zseq (T a) (N a)) -> In i (concat (map (fun a => zseq (T a) (N a)) l)) -> False).
      { intros i I J. clear -ND I J. induction (zseq (T a) (N a)) as [|x xs IHx]; [destruct I|].
        cbn in ND. inversion ND; subst. destruct I as [->|I]; [apply H1, in_or_app; auto|auto]. }
      split.
      + intros i j I Hj. apply in_app_or in I.
        destruct I as [I|I].
        * assert (cell m' d (24 * Z.of_nat i + j) = cell m1 d (24 * Z.of_nat i + j)) as ->.
          { unfold cell. apply B'. intros i' j' I' Hj' E. unfold forward in E. apply (f_equal snd) in E. cbn [snd] in E.
            assert (i = i') by lia. subst. eapply Dis; eauto. }
          rewrite in_zseq in I by auto. destruct S1 as [S1 _].
          specialize (S1 (24 * (Z.of_nat i - T a) + j) ltac:(lia)). unfold cell, forward in S1 |- *. cbn [fst snd] in S1.
          replace (snd d + 24 * T a + (24 * (Z.of_nat i - T a) + j)) with (snd d + (24 * Z.of_nat i + j)) in S1 by ring.
          rewrite S1. f_equal. f_equal. ring.
        * rewrite A' by auto. f_equal.
          assert (Q : (24 * Z.of_nat i + j) / 24 = Z.of_nat i) by (symmetry; apply Z.div_unique with j; lia).
          assert (NI : ~ (T a <= Z.of_nat i < T a + N a)) by (rewrite <- in_zseq by auto; intros J; eapply Dis; eauto).
          assert (Sd : forall k, k / 24 = Z.of_nat i -> value m1 d k = value m d k).
          { intros k K. unfold KernSpec.value. erewrite stored_other_site; eauto. }
          apply result_local with (s := Z.of_nat i); auto.
          intros q k I'. destruct Rd as [(_ & _ & Ho) _]. destruct (Ho q k I') as [_ B].
          destruct k; cbn [alike].
          -- eapply stored_elsewhere; [eassumption|tauto].
          -- eapply stored_elsewhere; [eassumption|tauto].
          -- destruct B as [_ [->|B]]; [exact Sd|]. intros. eapply stored_elsewhere; eauto.
      + intros b o NB. rewrite B'.
        * destruct S1 as [_ S1]. apply S1. unfold forward. cbn [fst snd]. intros [-> Ho].
          set (k := o - snd d). pose proof (Z.div_mod k 24 ltac:(lia)) as DM. pose proof (Z.mod_pos_bound k 24 ltac:(lia)) as MB.
          apply (NB (Z.to_nat (k / 24)) (k mod 24)); [apply in_or_app; left; apply in_zseq; auto; lia|lia|].
          unfold forward. f_equal. lia.
        * intros i j I Hj. apply NB; auto. apply in_or_app. auto.
  Qed.

  (** ** Entry and the subset *)
  Lemma poke_same (m : memory R) b o v : poke m b o v b o = Some v.
  Proof. unfold poke. now rewrite Nat.eqb_refl, Z.eqb_refl. Qed.
  Lemma poke_block (m : memory R) b o v b' o' : b' <> b -> poke m b o v b' o' = m b' o'.
  Proof. intros. unfold poke. now rewrite (proj2 (Nat.eqb_neq b' b)). Qed.
  Lemma poke_off (m : memory R) b o v b' o' : o' <> o -> poke m b o v b' o' = m b' o'.
  Proof. intros. unfold poke. rewrite (proj2 (Z.eqb_neq o' o)) by auto. now rewrite andb_false_r. Qed.

  Lemma ready_change V sp m m1 : operands_ok m d env loc V sp -> (forall b o, b <> loc -> m1 b o = m b o) ->
    operands_ok m1 d env loc V sp /\ (forall q k, In (q, k) (operands [] (s_rhs sp)) -> forall j, value m1 (env q) j = value m (env q) j)
    /\ (forall j, value m1 d j = value m d j).
  Proof.
    intros (Hd & Hdl & Ho) S.
    assert (HH : forall p k, fst p <> loc -> has m p k -> has m1 p k).
    { intros p k F H i Hi. unfold cell. rewrite S; auto. now apply H. }
    split; [split; [|split]|split].
    - now apply HH.
    - exact Hdl.
    - intros q k I. destruct (Ho q k I) as [A B]. split; [exact A|].
      destruct k; destruct B as [B1 B2]; (split; [now apply HH|exact B2]).
    - intros q k I j. unfold KernSpec.value, cell. rewrite S; auto. now apply (Ho q k I).
    - intros j. unfold KernSpec.value, cell. now rewrite S.
  Qed.

  Lemma entered V sp m : regular sp = true -> operands_ok m d env loc V sp ->
    exists m1, FuseModel.in_order (enter1 rI rdiv ropp d env loc sp) (map snd (s_scal sp)) m = Val m1 /\
      ready V sp m1 /\ (forall b o, b <> loc -> m1 b o = m b o).
  Proof.
    intros Reg Op. pose proof Reg as Reg'. unfold regular in Reg. apply andb_prop in Reg. destruct Reg as [Reg _].
    apply andb_prop in Reg. destruct Reg as [F Shape]. rewrite forallb_forall in F.
    assert (Rd : forall a k o, from_operand sp a k = true -> k <> LVec -> o = 0 \/ (o = 1 /\ k = LCplx) ->
      exists q, assoc a (s_objs sp) = Some q /\ In (q, k) (operands [] (s_rhs sp)) /\
        read d env sp m a o = Val (value m (env q) o)).
    { intros a k o Fr NV Ok. destruct (from_operand_in _ _ _ Fr) as (q & E & Nd & I).
      exists q. repeat split; auto. unfold read, object. rewrite Nd, E. cbn.
      destruct Op as (_ & _ & Op). destruct (Op _ _ I) as [_ B].
      assert (has m (env q) (o + 1)) as H.
      { destruct k; [|destruct Ok as [->|[-> _]]|congruence]; destruct B as [B _]; intros i Hi; apply B; try lia.
        destruct Ok as [->|[_ Ok]]; [lia|discriminate]. }
      specialize (H o ltac:(lia)). unfold KernSpec.value, cell in *.
      destruct (m (fst (env q)) (snd (env q) + o)); [reflexivity|congruence]. }
    assert (One : forall sd, In sd (map snd (s_scal sp)) ->
      exists m1, enter1 rI rdiv ropp d env loc sp sd m = Val m1 /\
        (forall b o, b <> loc -> m1 b o = m b o) /\ local_ok rO rI rdiv ropp env loc sp m1 sd).
    { intros sd I. specialize (F _ I).
      destruct sd as [a|a|a|a| |a]; cbn [enter1 local_ok].
      - exists m. auto.
      - destruct (Rd _ _ 0 F ltac:(discriminate) (or_introl eq_refl)) as (q & E & Iq & ->). cbn [bind].
        eexists. split; [reflexivity|].
        assert (S : forall b o, b <> loc -> poke m loc 0 (value m (env q) 0) b o = m b o) by (intros; now apply poke_block).
        split; [exact S|]. rewrite E, poke_same. f_equal. symmetry.
        eapply (proj1 (proj2 (ready_change V sp m _ Op S))); eauto.
      - destruct (Rd _ _ 0 F ltac:(discriminate) (or_introl eq_refl)) as (q & E & Iq & ->). cbn [bind].
        eexists. split; [reflexivity|].
        assert (S : forall b o, b <> loc -> poke m loc 0 (ropp (value m (env q) 0)) b o = m b o) by (intros; now apply poke_block).
        split; [exact S|]. rewrite E, poke_same. f_equal. f_equal. symmetry.
        eapply (proj1 (proj2 (ready_change V sp m _ Op S))); eauto.
      - destruct (Rd _ _ 0 F ltac:(discriminate) (or_introl eq_refl)) as (q & E & Iq & ->). cbn [bind].
        eexists. split; [reflexivity|].
        assert (S : forall b o, b <> loc -> poke m loc 0 (rdiv rI (value m (env q) 0)) b o = m b o) by (intros; now apply poke_block).
        split; [exact S|]. rewrite E, poke_same. f_equal. f_equal. symmetry.
        eapply (proj1 (proj2 (ready_change V sp m _ Op S))); eauto.
      - eexists. split; [reflexivity|]. split; [intros; now apply poke_block|apply poke_same].
      - destruct (Rd _ _ 0 F ltac:(discriminate) (or_introl eq_refl)) as (q & E & Iq & ->). cbn [bind].
        destruct (Rd _ _ 1 F ltac:(discriminate) (or_intror (conj eq_refl eq_refl))) as (q' & E' & _ & ->). cbn [bind].
        assert (q' = q) by congruence. subst q'.
        eexists. split; [reflexivity|].
        match goal with |- (forall b o, _ -> ?M b o = _) /\ _ => assert (S : forall b o, b <> loc -> M b o = m b o) end.
        { intros. rewrite !poke_block; auto. }
        split; [exact S|]. rewrite E. rewrite poke_same, poke_off, poke_same by discriminate.
        rewrite !(proj1 (proj2 (ready_change V sp m _ Op S)) _ _ Iq). auto. }
    destruct (map snd (s_scal sp)) as [|sd [|sd' [|]]] eqn:E; try discriminate.
    - exists m. split; [reflexivity|]. split; [|auto]. split; [exact Op|]. rewrite E. constructor.
    - destruct (One sd (or_introl eq_refl)) as (m1 & E1 & S & Lk).
      exists m1. cbn [FuseModel.in_order]. rewrite E1. split; [reflexivity|]. split; [|exact S].
      split; [apply (ready_change V sp m m1 Op S)|]. rewrite E. constructor; [exact Lk|constructor].
    - destruct sd; try discriminate. destruct sd'; try discriminate.
      exists m. split; [reflexivity|]. split; [|auto]. split; [exact Op|]. rewrite E. repeat constructor.
    - destruct sd; try discriminate. destruct sd'; discriminate.
  Qed.

  Lemma in_order_concat {A B} (g : B -> memory R -> res (memory R)) (h : A -> list B) l : forall m,
    in_order (fun a => in_order g (h a)) l m = in_order g (concat (map h l)) m.
  Proof.
    assert (App : forall x y m, in_order g (x ++ y) m = bind (in_order g x m) (in_order g y)).
    { induction x as [|b x IH]; intros y m; [reflexivity|]. cbn. destruct (g b m); cbn; auto. }
    induction l as [|a l IH]; intros m; [reflexivity|]. cbn [map concat FuseModel.in_order]. rewrite App.
    destruct (in_order g (h a) m); cbn; auto.
  Qed.

  (** ** evaluate() *)
  Lemma concat_map_map {A B} (f : A -> B) (ls : list (list A)) : concat (map (map f) ls) = map f (concat ls).
  Proof. induction ls as [|a ls IH]; [reflexivity|]. cbn. now rewrite IH, map_app. Qed.

  Lemma evaluate_ok V sp s threads calls m :
    In sp specials -> operands_ok m d env loc V sp -> good_subset V s -> (0 < threads)%nat ->
    Permutation calls (dispatch threads (total s)) ->
    exists m', evaluate_special rO rI radd rmul rsub rdiv ropp d env loc sp s calls m = Val m' /\
      assigned_at m m' d (s_table s) (result sp m).
  Proof.
    intros Isp Op (Fl & ND & Bd) Th Perm.
    assert (Reg : regular sp = true).
    { pose proof specials_regular as F. rewrite forallb_forall in F. auto. }
    pose proof (specials_ok rO rI radd rmul rsub rdiv ropp RT DIV d env loc) as Ok. rewrite Forall_forall in Ok.
    destruct (Ok sp Isp V) as [OkO OkU]. clear Ok.
    destruct (entered V sp m Reg Op) as (m1 & E1 & Rd1 & S1).
    unfold evaluate_special. rewrite E1. cbn [bind].
    pose proof (dispatch_iterations threads (total s) Th) as It.
    assert (PermI : Permutation (concat (map iterations calls)) (List.seq 0 (total s))).
    { rewrite <- It. rewrite <- !flat_map_concat_map. now apply Permutation_flat_map. }
    assert (Fin : forall sites, Permutation sites (s_table s) ->
      forall f, (exists m2, in_order f calls m1 = Val m2 /\ assigned_at m1 m2 d sites (result sp m1)) ->
      exists m', bind (in_order f calls m1) (fun m2 => Val (fun b o => if Nat.eqb b loc then m b o else m2 b o)) = Val m' /\
        assigned_at m m' d (s_table s) (result sp m)).
    { intros sites P f (m2 & E2 & A2 & B2). rewrite E2. cbn [bind]. eexists. split; [reflexivity|].
      destruct (ready_change V sp m m1 Op S1) as (_ & Vq & Vd). destruct Op as (_ & Hdl & _).
      split.
      - intros i j I Hj. unfold cell. rewrite (proj2 (Nat.eqb_neq _ _) Hdl).
        specialize (A2 i j). unfold cell in A2. rewrite A2; [|eapply Permutation_in; [symmetry; eassumption|assumption]|exact Hj].
        f_equal. apply result_local with (s := Z.of_nat i); auto.
        + symmetry. apply Z.div_unique with j; lia.
        + cbn. auto.
        + intros q k Iq. pose proof (Vq q k Iq). destruct k; cbn; auto.
      - intros b o NB. destruct (Nat.eqb_spec b loc); [reflexivity|]. rewrite B2, S1; auto.
        intros i j I Hj. apply NB; auto. eapply Permutation_in; eassumption. }
    destruct (s_ordRep s) eqn:Or.
    - destruct Fl as (_ & Fl & _). destruct (Fl Or) as (a & b & Hab & Ea & Eb & Et).
      assert (Tot : (total s = S b - a)%nat) by (unfold total; rewrite Or, Ea, Eb; lia).
      assert (Hb : (b < V)%nat).
      { rewrite Forall_forall in Bd. apply Bd. rewrite Et. unfold run_of. apply in_seq. lia. }
      assert (Sites : forall c, In c calls -> let '(lo, hi, _) := c in
        zseq (Z.of_nat a + Z.of_nat lo) (Z.of_nat hi - Z.of_nat lo) = map (fun j => (a + j)%nat) (iterations c)).
      { intros [[lo hi] id] _. cbn [iterations]. unfold zseq.
        replace (Z.to_nat (Z.of_nat a + Z.of_nat lo)) with (a + lo)%nat by lia.
        replace (Z.to_nat (Z.of_nat hi - Z.of_nat lo)) with (hi - lo)%nat by lia.
        generalize (hi - lo)%nat. intros n. clear. revert lo. induction n; intros lo; [reflexivity|]. cbn. f_equal.
        rewrite <- IHn. f_equal. lia. }
      assert (SitesAll : concat (map (fun c => zseq (Z.of_nat a + Z.of_nat (fst (fst c))) (Z.of_nat (snd (fst c)) - Z.of_nat (fst (fst c)))) calls)
                = map (fun j => (a + j)%nat) (concat (map iterations calls))).
      { rewrite <- concat_map_map, map_map. f_equal. apply map_ext_in. intros [[lo hi] id] I. exact (Sites _ I). }
      assert (PT : Permutation (map (fun j => (a + j)%nat) (concat (map iterations calls))) (s_table s)).
      { rewrite Et. unfold run_of. rewrite PermI, Tot. apply Permutation_refl'.
        generalize (S b - a)%nat. clear. intros n.
        assert (G : forall k, map (fun j => (a + j)%nat) (List.seq k n) = List.seq (a + k) n).
        { induction n; intros k; [reflexivity|]. cbn. f_equal. rewrite IHn. f_equal. lia. }
        rewrite G. now rewrite Nat.add_0_r. }
      apply (Fin (map (fun j => (a + j)%nat) (concat (map iterations calls))) PT).
      rewrite <- SitesAll.
      apply (in_order_ok V sp _ (fun c => Z.of_nat a + Z.of_nat (fst (fst c))) (fun c => Z.of_nat (snd (fst c)) - Z.of_nat (fst (fst c))) Reg calls m1 Rd1).
      + intros [[lo hi] id] I. cbn [fst snd].
        assert (In (lo, hi, id) (dispatch threads (total s))) as I' by (eapply Permutation_in; eassumption).
        destruct (proj1 (C14_all threads (total s) Th) _ _ _ I') as [L1 L2].
        split; [lia|]. split; [lia|]. rewrite Ea. apply OkO; lia.
      + rewrite SitesAll. eapply Permutation_NoDup; [symmetry; exact PT|exact ND].
    - assert (Tot : total s = List.length (s_table s)) by (unfold total; now rewrite Or).
      set (site := fun j => nth j (s_table s) 0%nat).
      assert (PT : Permutation (map site (concat (map iterations calls))) (s_table s)).
      { rewrite PermI, Tot. assert (Em : map site (List.seq 0 (List.length (s_table s))) = s_table s); [|now rewrite Em].
        subst site.
        apply nth_ext with 0%nat 0%nat; [now rewrite map_length, seq_length|]. intros n Hn.
        rewrite map_length, seq_length in Hn.
        rewrite nth_indep with (d' := nth 0 (s_table s) 0%nat) by (now rewrite map_length, seq_length).
        rewrite (map_nth (fun j => nth j (s_table s) 0%nat)), seq_nth; auto. }
      assert (InT : forall j, In j (concat (map iterations calls)) -> nth_error (s_table s) j = Some (site j)).
      { intros j I. apply nth_error_nth'. rewrite <- Tot.
        apply (Permutation_in j) in PermI; auto. apply in_seq in PermI. lia. }
      apply (Fin _ PT).
      set (g := fun j m => bind (of_option (nth_error (s_table s) j)) (fun i => unordered_call rO radd rmul rsub ropp d env loc sp (Z.of_nat i) m)).
      assert (EqF : in_order (fun c m => let '(lo, hi, _) := c in in_order g (iterations c) m) calls m1 =
                    in_order g (concat (map iterations calls)) m1).
      { rewrite <- (in_order_concat g iterations). clear. revert m1. induction calls as [|[[lo hi] id] l IH]; intros; [reflexivity|].
        cbn. destruct (in_order g (List.seq lo (hi - lo)) m1); cbn; auto. }
      change (exists m2, in_order (fun c m => let '(lo, hi, _) := c in in_order g (iterations c) m) calls m1 = Val m2 /\
        assigned_at m1 m2 d (map site (concat (map iterations calls))) (result sp m1)).
      rewrite EqF.
      assert (SitesAll : concat (map (fun j => zseq (Z.of_nat (site j)) 1) (concat (map iterations calls))) = map site (concat (map iterations calls))).
      { generalize (concat (map iterations calls)). intros l. clear. induction l; [reflexivity|]. cbn [map concat].
        rewrite IHl. unfold zseq. now rewrite Nat2Z.id. }
      rewrite <- SitesAll.
      apply (in_order_ok V sp g (fun j => Z.of_nat (site j)) (fun _ => 1) Reg _ m1 Rd1).
      + intros j I. split; [lia|]. split; [lia|].
        assert (site j < V)%nat.
        { rewrite Forall_forall in Bd. apply Bd. eapply nth_error_In, InT, I. }
        unfold g. rewrite (InT j I). cbn [of_option bind]. apply OkU; lia.
      + rewrite SitesAll. eapply Permutation_NoDup; [symmetry; exact PT|exact ND].
  Qed.
End Fuse.

(** Lemmas about the commands on HDF5 files. *)
From Coq Require Import String Ascii List Arith NArith Bool Lia.
From Verif Require Import Base H5DirModel H5DirSpec H5DirProofs.
Import ListNotations.
Local Open Scope nat_scope.
Local Notation length := List.length.

Lemma removelast_app1 (p : path) c : removelast (p ++ [c]) = p.
Proof. apply removelast_last. Qed.
Lemma snoc_neq (p : path) c : p ++ [c] <> p.
Proof. intro E. apply (f_equal (@length _)) in E. rewrite app_length in E. cbn in E. lia. Qed.

(** ** Changes of a file *)
Lemma set_obj_at F p o : obj (set_obj F p o) p = o.
Proof. cbn. now rewrite peq_refl. Qed.
Lemma set_obj_other F p o q : q <> p -> obj (set_obj F p o) q = obj F q.
Proof. intro H. cbn. now rewrite peq_false. Qed.
Lemma set_obj_spec F p o : with_object F (set_obj F p o) p o.
Proof.
  split; [apply set_obj_at|]. split; [intro a; cbn; now rewrite peq_refl|].
  intros q H. split; [now apply set_obj_other|]. intro a. cbn. now rewrite peq_false.
Qed.
Lemma set_att_spec F p a d : with_att F (set_att F p a d) p a d.
Proof.
  split; [reflexivity|]. cbn. split; [now rewrite peq_refl, String.eqb_refl|].
  intros q b H. destruct (peq q p) eqn:E1; [|reflexivity]. apply peq_true in E1.
  destruct (String.eqb_spec b a) as [E2|]; [|reflexivity]. subst. now contradiction H.
Qed.

Lemma tree_create F p o : tree F -> p <> [] -> obj F (removelast p) = Some Group -> obj F p = None -> Forall proper p ->
  tree (set_obj F p (Some o)).
Proof.
  intros (T1 & T2 & T3 & T4) Hn Hg Hp HF. split; [|split; [|split]].
  - rewrite set_obj_other; [assumption|congruence].
  - intros q c H. destruct (list_eq_dec string_dec (q ++ [c]) p) as [E|E].
    + subst p. rewrite removelast_app1 in Hg. rewrite set_obj_other; [assumption|]. intro E. symmetry in E. now apply snoc_neq in E.
    + rewrite set_obj_other in H by assumption. apply T2 in H. rewrite set_obj_other; [assumption|]. congruence.
  - intros q H. destruct (list_eq_dec string_dec q p) as [->|E]; [assumption|]. rewrite set_obj_other in H by assumption. now apply T3.
  - intros q a H. cbn in H. destruct (peq q p) eqn:E; [contradiction|].
    rewrite set_obj_other; [now apply (T4 q a)|]. intros ->. rewrite peq_refl in E. discriminate.
Qed.
Lemma tree_remove F p d : tree F -> obj F p = Some (Dataset d) -> tree (set_obj F p None).
Proof.
  intros (T1 & T2 & T3 & T4) Hp.
  assert (K : forall q, obj F q = Some Group -> q <> p) by (intros q H ->; congruence).
  split; [|split; [|split]].
  - rewrite set_obj_other; [assumption|now apply K].
  - intros q c H. destruct (list_eq_dec string_dec (q ++ [c]) p) as [E|E].
    + subst p. now rewrite set_obj_at in H.
    + rewrite set_obj_other in H by assumption. apply T2 in H. rewrite set_obj_other; [assumption|now apply K].
  - intros q H. destruct (list_eq_dec string_dec q p) as [->|E]; [now rewrite set_obj_at in H|]. rewrite set_obj_other in H by assumption. now apply T3.
  - intros q a H. cbn in H. destruct (peq q p) eqn:E; [contradiction|].
    rewrite set_obj_other; [now apply (T4 q a)|]. intros ->. rewrite peq_refl in E. discriminate.
Qed.
Lemma tree_att F p a d : tree F -> (d <> None -> obj F p <> None) -> tree (set_att F p a d).
Proof.
  intros (T1 & T2 & T3 & T4) Hp. split; [|split; [|split]]; try assumption.
  intros q b H. cbn in *. destruct (peq q p) eqn:E1; [|now apply (T4 q b)]. apply peq_true in E1. subst.
  destruct (b =? a)%string; [now apply Hp|now apply (T4 p b)].
Qed.
Lemma below_above p q : below p q = true <-> above p q.
Proof.
  revert q. induction p as [|x p IH]; intro q; cbn.
  - split; [intros _; now exists q|reflexivity].
  - destruct q as [|y q].
    + split; [discriminate|]. intros [r H]. discriminate.
    + rewrite andb_true_iff, IH. rewrite String.eqb_eq. split.
      * intros [-> [r ->]]. now exists r.
      * intros [r H]. cbn in H. injection H as -> ->. split; [reflexivity|now exists r].
Qed.
Lemma below_false p q : below p q = false <-> ~ above p q.
Proof. rewrite <- below_above. destruct (below p q); split; congruence. Qed.
Lemma tree_del F p : tree F -> p <> [] -> tree (del_tree F p).
Proof.
  intros (T1 & T2 & T3 & T4) Hn. split; [|split; [|split]].
  - cbn. destruct p; [contradiction|]. assumption.
  - intros q c H. cbn in *. destruct (below p (q ++ [c])) eqn:E; [contradiction|].
    destruct (below p q) eqn:E2.
    + apply below_above in E2. destruct E2 as [r ->]. apply below_false in E. exfalso. apply E. exists (r ++ [c]). now rewrite app_assoc.
    + now apply (T2 q c).
  - intros q H. cbn in H. destruct (below p q); [contradiction|]. now apply T3.
  - intros q a H. cbn in *. destruct (below p q); [contradiction|]. now apply (T4 q a).
Qed.

Lemma above_refl p : above p p.
Proof. exists []. now rewrite app_nil_r. Qed.
Lemma above_app p q r : above p q -> above p (q ++ r).
Proof. intros [u ->]. exists (u ++ r). now rewrite app_assoc. Qed.
Lemma above_snoc p q c : above p (q ++ [c]) -> above p q \/ p = q ++ [c].
Proof.
  intros [r H]. destruct r as [|d r _] using rev_ind.
  - right. now rewrite app_nil_r in H.
  - left. rewrite app_assoc in H. apply app_inj_tail in H. destruct H as [-> _]. now exists r.
Qed.
Lemma above_dec p q : {above p q} + {~ above p q}.
Proof. destruct (below p q) eqn:E; [left; now apply below_above|right; now apply below_false]. Qed.

(** Groups made step by step. *)
Lemma groups_here F p : tree F -> obj F p = Some Group -> with_groups F F p.
Proof.
  intros HT Hp. split; [|repeat split; reflexivity].
  intros q [r E]. destruct r as [|c r]; [rewrite app_nil_r in E; congruence|].
  apply (tree_up F q (c :: r)); [assumption| |discriminate]. rewrite <- E, Hp. discriminate.
Qed.
Lemma groups_new F p c : tree F -> obj F p = Some Group -> obj F (p ++ [c]) = None ->
  with_groups F (set_obj F (p ++ [c]) (Some Group)) (p ++ [c]).
Proof.
  intros HT Hp Hc. destruct (groups_here F p HT Hp) as [H1 _].
  split; [|split; [|split]].
  - intros q Hq. destruct (above_snoc _ _ _ Hq) as [Hq'| ->]; [|apply set_obj_at].
    rewrite set_obj_other; [now apply H1|]. intros ->. rewrite (H1 _ Hq') in Hc. discriminate.
  - intros q Hq. apply set_obj_other. intros ->. apply Hq, above_refl.
  - intros q Hq. apply set_obj_other. intros ->. contradiction.
  - intros q a. cbn. destruct (peq q (p ++ [c])) eqn:E; [|reflexivity].
    apply peq_true in E. subst. destruct HT as (_ & _ & _ & T4).
    destruct (att F (p ++ [c]) a) eqn:EA; [|reflexivity]. exfalso. apply (T4 (p ++ [c]) a); [rewrite EA; discriminate|assumption].
Qed.
Lemma groups_trans F1 F2 F3 p r : with_groups F1 F2 p -> with_groups F2 F3 (p ++ r) -> with_groups F1 F3 (p ++ r).
Proof.
  intros (A1 & A2 & A3 & A4) (B1 & B2 & B3 & B4). split; [|split; [|split]].
  - exact B1.
  - intros q Hq. rewrite B2 by assumption. apply A2. intro H. apply Hq. now apply above_app.
  - intros q Hq. assert (E : obj F2 q = obj F1 q) by now apply A3. rewrite <- E. apply B3. now rewrite E.
  - intros q a. now rewrite B4, A4.
Qed.

Section P.
  Variables (dot : bool) (att_max : nat).

  (** ** push and mkdir *)

  Lemma push_loop_any ts x : good x -> Forall proper ts ->
    exists y r, push_loop dot ts x = Ok y /\ good y /\ s_cwd y = s_cwd x ++ r /\ above r ts /\
      with_groups (s_file x) (s_file y) (s_cwd x ++ r) /\
      (open_way (s_file x) (s_cwd x ++ ts) -> r = ts).
  Proof.
    revert x. induction ts as [|t ts IH]; intros x HG HF.
    - exists x, []. rewrite app_nil_r. split; [reflexivity|]. split; [assumption|]. split; [reflexivity|].
      split; [apply above_refl|]. split; [|reflexivity]. apply groups_here; apply HG.
    - inversion HF as [|t0 ts0 Ht Hts]; subst.
      pose proof (good_proper _ HG) as HP. destruct HG as (HT & HC & HI). unfold is_group in HC.
      cbn [push_loop]. unfold h5_lexists at 1. cbn [last]. rewrite (proper_dot _ Ht).
      rewrite plain_proper by (constructor; [assumption|constructor]).
      assert (HTp : Forall proper (s_cwd x ++ [t])) by (apply Forall_app; split; [assumption|constructor; [assumption|constructor]]).
      assert (K : forall F', tree F' -> obj F' (s_cwd x ++ [t]) = Some Group -> with_groups (s_file x) F' (s_cwd x ++ [t]) ->
        exists y r, push_loop dot ts (mkS F' (mkG (s_next x) (s_cwd x ++ [t])) (S (s_next x))) = Ok y /\ good y /\ s_cwd y = s_cwd x ++ r /\ above r (t :: ts) /\
          with_groups (s_file x) (s_file y) (s_cwd x ++ r) /\ (open_way (s_file x) (s_cwd x ++ t :: ts) -> r = t :: ts)).
      { intros F' HT' HO' HW. destruct (IH (mkS F' (mkG (s_next x) (s_cwd x ++ [t])) (S (s_next x)))) as (y & r & E1 & G1 & C1 & A1 & W1 & O1).
        - split; [exact HT'|]. split; [exact HO'|]. cbn. lia.
        - assumption.
        - cbn [s_cwd s_cur g_path s_file] in C1, W1, O1.
          exists y, (t :: r). split; [exact E1|]. split; [assumption|]. change (t :: r) with ([t] ++ r). rewrite app_assoc.
          split; [assumption|]. split.
          { destruct A1 as [u ->]. exists u. reflexivity. }
          split; [now apply (groups_trans _ F')|].
          intro HO. assert (r = ts); [|now subst]. apply O1. intros q Hq. unfold s_cwd in Hq. cbn [s_cur g_path] in Hq.
          destruct (above_dec q (s_cwd x ++ [t])) as [Ha|Ha].
          { right. now apply HW. }
          { destruct HW as (_ & W2 & _). rewrite W2 by assumption. apply HO.
            rewrite <- app_assoc in Hq. exact Hq. } }
      destruct (obj (s_file x) (s_cwd x ++ [t])) as [[|d|ty]|] eqn:HO.
      + apply K; [assumption|assumption|]. now apply groups_here.
      + exists x, []. rewrite app_nil_r. split; [reflexivity|]. split; [split; [assumption|split; assumption]|]. split; [reflexivity|].
        split; [exists (t :: ts); reflexivity|]. split; [now apply groups_here|].
        intro H. destruct (H (s_cwd x ++ [t])) as [E|E]; [exists ts; now rewrite <- app_assoc|congruence|congruence].
      + exists x, []. rewrite app_nil_r. split; [reflexivity|]. split; [split; [assumption|split; assumption]|]. split; [reflexivity|].
        split; [exists (t :: ts); reflexivity|]. split; [now apply groups_here|].
        intro H. destruct (H (s_cwd x ++ [t])) as [E|E]; [exists ts; now rewrite <- app_assoc|congruence|congruence].
      + unfold h5_create. rewrite HO, removelast_app1, HC.
        assert (Hne : s_cwd x ++ [t] <> []) by (now destruct (s_cwd x)).
        destruct (s_cwd x ++ [t]) as [|u v] eqn:Eu; [contradiction|]. rewrite <- Eu in *.
        apply K.
        * apply tree_create; try assumption. now rewrite removelast_app1.
        * apply set_obj_at.
        * now apply groups_new.
  Qed.

  Lemma cd_root x : good x -> exists y, ends (fun fuel => cd fuel "/" x) (Ok y) /\ good y /\ s_file y = s_file x /\ s_cwd y = [].
  Proof.
    intro HG. destruct (list_eq_dec string_dec (s_cwd x) []) as [E|E].
    - exists x. split; [|split; [assumption|split; [reflexivity|assumption]]].
      exists 0. intros fuel _. unfold cd, pwd. rewrite E. reflexivity.
    - destruct (cd_group x "/" []) as (y & H1 & H2 & H3 & H4); try assumption; try reflexivity; try discriminate.
      + apply HG.
      + congruence.
      + exists y. now repeat (split; [assumption|]).
  Qed.

  Lemma push_ok x s p : good x -> denotes (s_cwd x) s p ->
    exists y q, ends (fun fuel => push dot fuel s x) (Ok y) /\ good y /\ s_cwd y = q /\ above q p /\
      with_groups (s_file x) (s_file y) q /\ (open_way (s_file x) p -> q = p).
  Proof.
    intros HG HD. destruct (denotes_facts _ _ _ HD) as (Hn & HF & Hp & _).
    destruct (leading s) eqn:L.
    - destruct (cd_root x HG) as (z & [n Hz] & Gz & Fz & Cz).
      destruct (push_loop_any (tokens s) z Gz HF) as (y & r & E1 & G1 & C1 & A1 & W1 & O1).
      rewrite Cz in *. cbn [app] in *. exists y, r. split.
      { exists n. intros fuel Hf. unfold push. rewrite L, Hz by assumption. exact E1. }
      split; [assumption|]. split; [assumption|]. subst p. split; [assumption|]. rewrite <- Fz. split; [assumption|]. exact O1.
    - destruct (push_loop_any (tokens s) x HG HF) as (y & r & E1 & G1 & C1 & A1 & W1 & O1).
      exists y, (s_cwd x ++ r). split.
      { exists 0. intros fuel _. unfold push. rewrite L. exact E1. }
      split; [assumption|]. split; [assumption|]. subst p. split.
      { destruct A1 as [u ->]. exists u. now rewrite app_assoc. }
      split; [assumption|]. intro H. now rewrite (O1 H).
  Qed.
  (** Any number of turns. *)
  Lemma push_any fuel x s : good x -> Forall proper (tokens s) ->
    match push dot fuel s x with
    | Ok y => good y /\ with_groups (s_file x) (s_file y) (s_cwd y) | Running => True | _ => False end.
  Proof.
    intros HG HF. unfold push.
    assert (K : forall z, good z -> s_file z = s_file x -> match push_loop dot (tokens s) z with Ok y => good y /\ with_groups (s_file x) (s_file y) (s_cwd y) | Running => True | _ => False end).
    { intros z Gz Fz. destruct (push_loop_any (tokens s) z Gz HF) as (y & r & E1 & G1 & C1 & A1 & W1 & O1).
      rewrite E1. split; [assumption|]. rewrite C1, <- Fz. assumption. }
    destruct (leading s).
    - pose proof (cd_any fuel "/" x HG) as H. destruct (cd fuel "/" x) as [z| | |]; cbn [obind]; try exact H.
      destruct H as [Gz Fz]. now apply K.
    - cbn [obind]. now apply K.
  Qed.

  Lemma mkdir_ok x s p : good x -> denotes (s_cwd x) s p ->
    exists y q, ends (fun fuel => mkdir dot fuel s x) (Ok y) /\ good y /\ s_cwd y = s_cwd x /\ above q p /\
      with_groups (s_file x) (s_file y) q /\ (open_way (s_file x) p -> q = p).
  Proof.
    intros HG HD. destruct (push_ok x s p HG HD) as (z & q & [n Hz] & Gz & Cz & Aq & Wz & Oz).
    assert (Hs : (s =? "")%string || (s =? "/")%string = false).
    { destruct (denotes_facts _ _ _ HD) as (Hn & _).
      destruct (String.eqb_spec s "") as [->|_]; [now contradiction Hn|].
      destruct (String.eqb_spec s "/") as [->|_]; [now contradiction Hn|]. reflexivity. }
    assert (HW : is_group (s_file z) (s_cwd x)).
    { destruct Wz as (_ & _ & W & _). unfold is_group. rewrite W; [apply HG|]. destruct HG as (_ & H & _). unfold is_group in H. rewrite H. discriminate. }
    destruct (list_eq_dec string_dec (s_cwd x) (s_cwd z)) as [E|E].
    - exists z, q. split.
      { exists n. intros fuel Hf. unfold mkdir. rewrite Hs, Hz by assumption. cbn [obind]. unfold cd.
        unfold pwd. rewrite <- E. destruct (String.eqb_spec (render (s_cwd x)) "..") as [E2|_].
        { pose proof (render_leading (s_cwd x)) as L. rewrite E2 in L. discriminate. }
        now rewrite String.eqb_refl. }
      split; [assumption|]. split; [now symmetry|]. split; [assumption|]. split; assumption.
    - destruct (cd_group z (pwd x) (s_cwd x)) as (y & [m Hy] & Gy & Fy & Cy); try assumption.
      + intro E2. pose proof (render_leading (s_cwd x)) as L. unfold pwd in E2. rewrite E2 in L. discriminate.
      + apply abs_render. now apply good_proper.
      + exists y, q. split.
        { exists (n + m). intros fuel Hf. unfold mkdir. rewrite Hs, Hz by lia. cbn [obind]. apply Hy. lia. }
        split; [assumption|]. split; [assumption|]. split; [assumption|]. rewrite Fy. split; assumption.
  Qed.
  Lemma mkdir_any fuel x s : good x -> Forall proper (tokens s) ->
    match mkdir dot fuel s x with
    | Ok y => good y /\ exists q, with_groups (s_file x) (s_file y) q | Running => True | _ => False end.
  Proof.
    intros HG HF. unfold mkdir. destruct ((s =? "")%string || (s =? "/")%string).
    - split; [assumption|]. exists []. apply groups_here; apply HG.
    - pose proof (push_any fuel x s HG HF) as H. destruct (push dot fuel s x) as [z| | |]; cbn [obind]; try exact H.
      destruct H as [Gz Wz]. pose proof (cd_any fuel (pwd x) z Gz) as H. destruct (cd fuel (pwd x) z) as [y| | |]; try exact H.
      destruct H as [Gy Fy]. split; [assumption|]. exists (s_cwd z). now rewrite Fy.
  Qed.

  (** ** Writing *)
  Lemma write_any k s d trunc x p : good x -> denotes (s_cwd x) s p ->
    match write dot k s d trunc x with
    | Ok y => good y /\ s_cwd y = s_cwd x /\ (y = x \/ with_object (s_file x) (s_file y) p (Some (Dataset d)))
    | Stop F => F = s_file x
    | _ => False
    end.
  Proof.
    intros HG HD. pose proof HG as (HT & HC & HI). destruct (denotes_facts _ _ _ HD) as (Hn & HF & Hp & HA).
    unfold write. rewrite HA, (exists_ok dot _ _ _ _ HT HD), (last_proper _ Hn HF).
    assert (Hpp : Forall proper p).
    { rewrite Hp. apply Forall_app. split; [|assumption]. destruct (leading s); [constructor|now apply good_proper]. }
    assert (Hne : p <> []) by (rewrite Hp; destruct (leading s), (s_cwd x), (tokens s); cbn; congruence).
    assert (K : forall F', tree F' -> obj F' p <> Some Group -> (forall q, obj F' q = Some Group <-> obj (s_file x) q = Some Group) ->
       (forall q, q <> p -> obj F' q = obj (s_file x) q /\ forall a, att F' q a = att (s_file x) q a) ->
       match h5_create F' p (Dataset d) with
       | Some F2 => good (with_file x F2) /\ with_object (s_file x) F2 p (Some (Dataset d)) /\ obj (s_file x) (removelast p) = Some Group /\ obj F' p = None
       | None => True end).
    { intros F' T' O' Q' R'. unfold h5_create. destruct p as [|c p']; [exact I|]. set (p := c :: p') in *.
      destruct (obj F' (removelast p)) as [[| |]|] eqn:E1; try exact I. destruct (obj F' p) eqn:E2; [exact I|].
      split; [|split; [|split; [now apply Q'|reflexivity]]].
      - split; [now apply tree_create|]. split; [|exact HI]. cbn. unfold is_group. rewrite set_obj_other; [now apply Q'|].
        intro Ec. change (s_cwd x = p) in Ec. rewrite Ec in HC. unfold is_group in HC. apply Q' in HC. congruence.
      - destruct (set_obj_spec F' p (Some (Dataset d))) as (A1 & A2 & A3). split; [assumption|]. split; [assumption|].
        intros q Hq. destruct (A3 q Hq) as [B1 B2]. destruct (R' q Hq) as [C1 C2]. split; [congruence|]. intro a. now rewrite B2. }
    destruct (obj (s_file x) p) as [o|] eqn:HO.
    - assert (KR : match match k with KString => Ok x | _ => Stop (s_file x) end with
              | Ok y => good y /\ s_cwd y = s_cwd x /\ (y = x \/ with_object (s_file x) (s_file y) p (Some (Dataset d)))
              | Stop F => F = s_file x | _ => False end) by (destruct k; [reflexivity|reflexivity|now split; [|split; [|left]]|reflexivity]).
      destruct trunc; cbn [negb]; [|exact KR]. destruct o as [|d0|t0]; [exact KR| |exact KR].
      specialize (K (set_obj (s_file x) p None)).
      assert (T' : tree (set_obj (s_file x) p None)) by now apply (tree_remove _ _ d0).
      specialize (K T'). rewrite set_obj_at in K.
      assert (Ex : exists F2, h5_create (set_obj (s_file x) p None) p (Dataset d) = Some F2).
      { unfold h5_create. destruct p as [|c p']; [contradiction|]. rewrite set_obj_at.
        destruct (exists_last Hne) as (q & c0 & Eq). rewrite Eq in *. rewrite removelast_app1.
        rewrite set_obj_other by (intro E; symmetry in E; now apply snoc_neq in E).
        destruct HT as (_ & T2 & _). rewrite (T2 q c0) by (rewrite HO; discriminate). eexists; reflexivity. }
      destruct Ex as [F2 E2]. rewrite E2 in *.
      destruct K as (G2 & W2 & _).
      + discriminate.
      + intro q. destruct (list_eq_dec string_dec q p) as [->|E]; [rewrite set_obj_at, HO; split; discriminate|]. now rewrite set_obj_other.
      + intros q Hq. now apply set_obj_spec.
      + split; [exact G2|]. split; [reflexivity|]. right. exact W2.
    - specialize (K (s_file x) HT). rewrite HO in K.
      destruct (h5_create (s_file x) p (Dataset d)) as [F2|] eqn:E2.
      + destruct K as (G2 & W2 & _); [discriminate|intro; reflexivity|intros; split; reflexivity|].
        split; [exact G2|]. split; [reflexivity|]. right. exact W2.
      + destruct k; [split; [assumption|split; [reflexivity|now left]]|reflexivity|split; [assumption|split; [reflexivity|now left]]|split; [assumption|split; [reflexivity|now left]]].
  Qed.

  Lemma write_ok k s d trunc x p : good x -> denotes (s_cwd x) s p -> may_write (s_file x) p trunc ->
    exists F, write dot k s d trunc x = Ok (with_file x F) /\ good (with_file x F) /\ with_object (s_file x) F p (Some (Dataset d)).
  Proof.
    intros HG HD [HM1 HM2]. pose proof HG as (HT & HC & HI). destruct (denotes_facts _ _ _ HD) as (Hn & HF & Hp & HA).
    pose proof (write_any k s d trunc x p HG HD) as H.
    assert (Hne : p <> []) by (rewrite Hp; destruct (leading s), (s_cwd x), (tokens s); cbn; congruence).
    assert (Ex : exists F, write dot k s d trunc x = Ok (with_file x F) /\ with_object (s_file x) F p (Some (Dataset d))).
    { unfold write. rewrite HA, (exists_ok dot _ _ _ _ HT HD), (last_proper _ Hn HF).
      destruct HM2 as [HO|[-> [d0 HO]]]; rewrite HO.
      - unfold h5_create. destruct p as [|c p']; [contradiction|]. rewrite HM1, HO. eexists. split; [reflexivity|]. apply set_obj_spec.
      - cbn [negb]. unfold h5_create. destruct (exists_last Hne) as (q & c0 & Eq). destruct p as [|c p']; [contradiction|]. rewrite set_obj_at.
        rewrite Eq in *. rewrite removelast_app1 in *. rewrite set_obj_other by (intro E; symmetry in E; now apply snoc_neq in E).
        rewrite HM1. eexists. split; [reflexivity|].
        destruct (set_obj_spec (set_obj (s_file x) (q ++ [c0]) None) (q ++ [c0]) (Some (Dataset d))) as (A1 & A2 & A3).
        split; [assumption|]. split; [assumption|]. intros u Hu. destruct (A3 u Hu) as [B1 B2].
        destruct (set_obj_spec (s_file x) (q ++ [c0]) None) as (_ & _ & C3). destruct (C3 u Hu) as [D1 D2].
        split; [congruence|]. intro a. now rewrite B2. }
    destruct Ex as (F & E & W). exists F. rewrite E in H. destruct H as (G2 & _ & _). now repeat (split; [assumption|]).
  Qed.

  (** Attributes. *)
  Lemma write_att_any long s a d trunc x p : good x -> denotes (s_cwd x) s p ->
    match write_att dot att_max long s a d trunc x with
    | Ok y => good y /\ s_cwd y = s_cwd x /\ exists v, with_att (s_file x) (s_file y) p a v
    | Stop F => tree F /\ exists v, with_att (s_file x) F p a v
    | _ => False
    end.
  Proof.
    intros HG HD. pose proof HG as (HT & HC & HI). destruct (denotes_facts _ _ _ HD) as (Hn & HF & Hp & HA).
    unfold write_att. rewrite HA, (exists_ok dot _ _ _ _ HT HD).
    assert (Same : with_att (s_file x) (s_file x) p a (att (s_file x) p a)) by (split; [reflexivity|split; reflexivity]).
    assert (HG' : forall F', tree F' -> (forall q, obj F' q = obj (s_file x) q) -> good (with_file x F')).
    { intros F' T' O'. split; [exact T'|]. split; [|exact HI]. unfold is_group. cbn. rewrite O'. exact HC. }
    destruct (obj (s_file x) p) as [o|] eqn:HO.
    2:{ split; [assumption|]. eexists; exact Same. }
    assert (HN : obj (s_file x) p <> None) by (rewrite HO; discriminate).
    assert (TN : forall v, tree (set_att (s_file x) p a v)) by (intro v; apply tree_att; auto).
    assert (K : forall F1, tree F1 -> (forall q, obj F1 q = obj (s_file x) q) -> (exists v, with_att (s_file x) F1 p a v) ->
      match (if long && (limit <? N.of_nat (bytes d))%N then Stop F1
          else if (att_max <? bytes d) then Ok (with_file x F1)
          else Ok (with_file x (set_att F1 p a (Some d)))) with
      | Ok y => good y /\ s_cwd y = s_cwd x /\ exists v, with_att (s_file x) (s_file y) p a v
      | Stop F => tree F /\ exists v, with_att (s_file x) F p a v
      | _ => False
      end).
    { intros F1 T1 O1 [v W1]. destruct (long && (limit <? N.of_nat (bytes d))%N); [split; [assumption|now exists v]|].
      destruct (att_max <? bytes d).
      - split; [now apply HG'|]. split; [reflexivity|]. now exists v.
      - split.
        { apply HG'; [|intro q; apply O1]. apply tree_att; [assumption|]. intros _. now rewrite O1. }
        split; [reflexivity|]. exists (Some d). destruct W1 as (A1 & A2 & A3). destruct (set_att_spec F1 p a (Some d)) as (B1 & B2 & B3).
        split; [intro q; cbn [s_file with_file]; now rewrite B1|]. split; [assumption|].
        intros q b Hqb. cbn [s_file with_file]. now rewrite B3, A3. }
    destruct (att (s_file x) p a) as [v|] eqn:EA.
    - destruct trunc; cbn [negb].
      + apply K; [apply TN|reflexivity|]. exists None. apply set_att_spec.
      + split; [assumption|]. now exists (Some v).
    - apply K; [assumption|reflexivity|]. now exists None.
  Qed.
  Lemma write_att_ok long s a d trunc x p : good x -> denotes (s_cwd x) s p -> obj (s_file x) p <> None ->
    (att (s_file x) p a = None \/ trunc = true) -> bytes d <= att_max -> (long = true -> (N.of_nat (bytes d) <= 65536)%N) ->
    exists F, write_att dot att_max long s a d trunc x = Ok (with_file x F) /\ good (with_file x F) /\
      with_att (s_file x) F p a (Some d).
  Proof.
    intros HG HD HO HA HB HL. pose proof (write_att_any long s a d trunc x p HG HD) as H.
    pose proof HG as (HT & HC & HI). destruct (denotes_facts _ _ _ HD) as (Hn & HF & Hp & HAb).
    assert (Hlim : long && (limit <? N.of_nat (bytes d))%N = false).
    { destruct long; [|reflexivity]. cbn [andb]. apply N.ltb_ge. now apply HL. }
    assert (Hmax : (att_max <? bytes d) = false) by now apply Nat.ltb_ge.
    assert (Ex : exists F, write_att dot att_max long s a d trunc x = Ok (with_file x F) /\ with_att (s_file x) F p a (Some d)).
    { unfold write_att. rewrite HAb, (exists_ok dot _ _ _ _ HT HD), Hlim, Hmax.
      destruct (obj (s_file x) p) as [o|]; [|contradiction].
      destruct (att (s_file x) p a) as [v|].
      - destruct HA as [HA| ->]; [discriminate|]. cbn [negb]. eexists. split; [reflexivity|].
        destruct (set_att_spec (s_file x) p a None) as (A1 & A2 & A3).
        destruct (set_att_spec (set_att (s_file x) p a None) p a (Some d)) as (B1 & B2 & B3).
        split; [intro q; now rewrite B1|]. split; [assumption|]. intros q b Hqb. now rewrite B3, A3.
      - eexists. split; [reflexivity|]. apply set_att_spec. }
    destruct Ex as (F & E & W). exists F. rewrite E in H. destruct H as (G2 & _ & _). now repeat (split; [assumption|]).
  Qed.
End P.

(** Proofs about the on-disk map object: programs, sessions and crashes. *)
From Coq Require Import List Arith NArith ZArith Bool Permutation Lia.
From Coq Require Import ZifyBool ZifyNat ZifyN.
From Verif Require Import Base CrcModel IoModel CrcSpec IoSpec CrcProofs SwapProofs IoProofs MapObjModel MapObjSpec MapObjProofs MapDiskProofs MapDiskOk.
Import ListNotations.
Local Open Scope N_scope.
Local Arguments crc32 : simpl never.

Section DiskRun.
  Variable klt : value -> value -> bool.
  Hypothesis klt_order : strict_order klt.
  Variables tk tv : ty.
  Notation smap := (fmap (value * nat)).
  Notation Inv := (Inv klt tk tv).
  Notation FileOk := (FileOk klt tk tv).

  (** The first B bytes of the file are those of [d0], and are not going to be written as long as the
      keys in [F] are not updated. *)
  Definition frozen (B : nat) (d0 : list N) (F : list value) (pos : value -> nat) (o : disk) (s : store) (p : nat) : Prop :=
    same_upto B d0 (disk_file o) /\ (B <= length (disk_file o))%nat /\ (t_past s = true -> (B <= p)%nat) /\
    forall k v r, In (k, (v, r)) (t_map s) -> ~ In k F -> (B <= pos k)%nat.

  Lemma key_of_strings e ks : Forall (has_type klt tk) ks ->
    mapM (fun p : list N * (N * N) => key_of_string klt e tk (fst p)) (map (fun k => (enc tk k, (0, 0))) ks) = Val ks.
  Proof.
    induction 1 as [|k ks Hk _ IH]; cbn [map mapM fst]; [reflexivity|]. rewrite (key_of_string_ok klt klt_order) by exact Hk. cbn [bind].
    now rewrite IH.
  Qed.
  Lemma mapM_fst e (l : list (list N * (N * N))) ks : map fst l = map (enc tk) ks -> Forall (has_type klt tk) ks ->
    mapM (fun p => key_of_string klt e tk (fst p)) l = Val ks.
  Proof.
    revert ks. induction l as [|[b a] l IH]; intros [|k ks] E HF; cbn [map fst] in E; try discriminate; [reflexivity|].
    inversion E; subst. inversion HF; subst. cbn [mapM fst]. rewrite (key_of_string_ok klt klt_order) by assumption. cbn [bind].
    now rewrite (IH ks).
  Qed.
  Lemma keys_ok h pos o s p : host_ok h -> Inv h pos o s p ->
    exists l, disk_keys klt tk h o = Val l /\ Permutation l (map fst (t_map s)).
  Proof.
    intros HO I. unfold disk_keys. rewrite (inv_open klt tk tv _ _ _ _ _ _ _ I).
    destruct (iter_split klt tk tv _ _ _ _ _ HO I) as (l & -> & PL).
    assert (P : Permutation (map fst l) (map (enc tk) (map fst (t_map s)))).
    { rewrite <- (keymap_keys tk pos). now apply Permutation_map. }
    apply Permutation_map_inv in P. destruct P as (ks & E & P). exists ks. split; [|now apply Permutation_sym].
    apply mapM_fst; [now rewrite privs_keys|]. eapply Permutation_Forall; [exact P|]. apply (typed_keys klt tk tv), I.
  Qed.

  Lemma step_ok h pos o s p op : host_ok h -> Inv h pos o s p -> fits tk s -> legal klt tk tv op s ->
    exists x o' pos' p', disk_step klt tk tv h op o = Val (x, o') /\ same_out x (fst (store_step tk tv op s)) /\
      Inv h pos' o' (snd (store_step tk tv op s)) p' /\
      forall B d0 F, frozen B d0 F pos o s p -> spares F op -> frozen B d0 F pos' o' (snd (store_step tk tv op s)) p'.
  Proof.
    intros HO I F L. destruct op as [k v|k| |k| | |]; cbn [disk_step legal] in *.
    - destruct L as (Hk & Hv & Hi & L). rewrite (nbytes_ok klt) in Hi by exact Hk. cbn [store_step fst snd].
      rewrite (nbytes_ok klt) in L |- * by exact Hv. destruct (lookup k (t_map s)) as [[v0 r]|] eqn:E.
      + destruct (update_ok klt klt_order tk tv _ _ _ _ _ _ _ _ _ I F Hk Hv Hi E L) as (o' & p' & -> & ED & I'). cbn [bind].
        do 4 eexists. split; [reflexivity|]. split; [reflexivity|]. split; [exact I'|].
        intros B d0 FK (S & LB & _ & PB) SP. cbn [spares] in SP. pose proof (lookup_In _ _ _ E) as HI.
        destruct (proj1 (i_placed _ _ _ _ _ _ _ _ I) _ _ _ HI) as (_ & X & _). pose proof (PB _ _ _ HI SP) as PK.
        unfold frozen. rewrite ED. repeat split.
        * eapply same_upto_trans; [exact S|]. apply overwrite_upto; lia.
        * rewrite overwrite_length by lia. lia.
        * cbn [t_past]. discriminate.
        * cbn [t_map]. intros k' v' r' H N. apply put_In in H; [|apply (i_typed _ _ _ _ _ _ _ _ I)].
          destruct H as [[-> _]|[_ H]]; [exact PK|]. eapply PB; eassumption.
      + destruct (add_ok klt klt_order tk tv _ _ _ _ _ _ v HO I F Hk Hv Hi E L) as (o' & -> & ED & I'). cbn [bind].
        do 4 eexists. split; [reflexivity|]. split; [reflexivity|]. split; [exact I'|].
        intros B d0 FK (S & LB & PP & PB) SP. specialize (PP L). pose proof (i_pos _ _ _ _ _ _ _ _ I) as PL.
        unfold frozen. rewrite ED. repeat split.
        * eapply same_upto_trans; [exact S|]. apply overwrite_upto; lia.
        * rewrite overwrite_length by lia. lia.
        * intros _. lia.
        * cbn [t_map]. intros k' v' r' H N. destruct (value_eqb k k') eqn:X; [exact PP|].
          apply put_In in H; [|apply (i_typed _ _ _ _ _ _ _ _ I)]. destruct H as [[-> _]|[_ H]]; [|eapply PB; eassumption].
          assert (value_eqb k k = true) by now apply value_eqb_eq. congruence.
    - destruct (get_ok klt klt_order tk tv _ _ _ _ _ k I F L) as (o' & p' & -> & ED & I' & EP & _). cbn [bind].
      cbn [store_step] in *. destruct (lookup k (t_map s)) as [[v r]|] eqn:E; cbn [fst snd] in *.
      + do 4 eexists. split; [reflexivity|]. split; [reflexivity|]. split; [exact I'|].
        intros B d0 FK (S & LB & _ & PB) _. unfold frozen. rewrite ED. cbn [t_past t_map]. repeat split; auto. discriminate.
      + do 4 eexists. split; [reflexivity|]. split; [reflexivity|]. split; [exact I'|].
        intros B d0 FK (S & LB & PP & PB) _. unfold frozen. rewrite ED. repeat split; auto. intros T. rewrite (EP T). auto.
    - destruct (flush_ok klt tk tv _ _ _ _ _ HO I F) as (o' & p' & -> & I' & _). cbn [bind].
      do 4 eexists. split; [reflexivity|]. split; [reflexivity|]. split; [exact I'|]. intros B d0 FK _ [].
    - unfold disk_exist. rewrite (key_string_ok klt) by exact L. cbn [bind]. rewrite (inv_find klt klt_order tk tv _ _ _ _ _ _ I L).
      do 4 eexists. split; [reflexivity|]. cbn [store_step fst snd]. split; [|split; [exact I|auto]].
      destruct (lookup k (t_map s)); reflexivity.
    - do 4 eexists. split; [reflexivity|]. cbn [store_step fst snd]. split; [|split; [exact I|auto]].
      unfold disk_size. rewrite (Permutation_length (i_index _ _ _ _ _ _ _ _ I)). unfold privs, keymap_of. now rewrite !map_length.
    - destruct (keys_ok _ _ _ _ _ HO I) as (l & -> & PL). cbn [bind].
      do 4 eexists. split; [reflexivity|]. cbn [store_step fst snd]. split; [exact PL|split; [exact I|auto]].
    - unfold disk_getUserdata. rewrite (inv_open klt tk tv _ _ _ _ _ _ _ I).
      do 4 eexists. split; [reflexivity|]. cbn [store_step fst snd]. split; [|split; [exact I|auto]].
      cbn [same_out]. now rewrite (i_user _ _ _ _ _ _ _ _ I).
  Qed.

  Lemma legal_fits ops s : legal_run klt tk tv ops s -> fits tk s.
  Proof. destruct ops; cbn [legal_run]; tauto. Qed.

  Lemma run_ok h ops : host_ok h -> forall pos o s p, Inv h pos o s p -> legal_run klt tk tv ops s ->
    exists xs o' pos' p', disk_run klt tk tv h ops o = Val (xs, o') /\ Forall2 same_out xs (fst (store_run tk tv ops s)) /\
      Inv h pos' o' (snd (store_run tk tv ops s)) p' /\ fits tk (snd (store_run tk tv ops s)) /\
      forall B d0 F, frozen B d0 F pos o s p -> Forall (spares F) ops -> frozen B d0 F pos' o' (snd (store_run tk tv ops s)) p'.
  Proof.
    intros HO. induction ops as [|op ops IH]; intros pos o s p I L; cbn [legal_run disk_run store_run] in *.
    - do 4 eexists. split; [reflexivity|]. split; [constructor|]. split; [exact I|]. split; [exact L|]. auto.
    - destruct L as (F & LO & LR). destruct (step_ok _ _ _ _ _ _ HO I F LO) as (x & o1 & pos1 & p1 & -> & SX & I1 & FR1). cbn [bind].
      destruct (store_step tk tv op s) as [y s1] eqn:ES. cbn [fst snd] in *.
      destruct (IH _ _ _ _ I1 LR) as (xs & o2 & pos2 & p2 & -> & SXS & I2 & F2 & FR2). cbn [bind].
      destruct (store_run tk tv ops s1) as [ys s2] eqn:ER. cbn [fst snd] in *.
      do 4 eexists. split; [reflexivity|]. split; [constructor; eassumption|]. split; [exact I2|]. split; [exact F2|].
      intros B d0 FK FR HS. inversion HS; subst. auto.
  Qed.

  Lemma reopened_eq s : reopened tk s = mkStore (t_map s) true false (t_user s) (t_len (reopened tk s)).
  Proof. reflexivity. Qed.

  (** A program from an open object to the closed file. *)
  Lemma program_ok h ops pos o s p : host_ok h -> Inv h pos o s p -> legal_run klt tk tv ops s ->
    exists xs o' pos' B, bind (disk_run klt tk tv h ops o) (fun '(xs, o) => bind (disk_close h o) (fun o => Val (xs, disk_file o))) = Val (xs, disk_file o') /\
      Forall2 same_out xs (fst (store_run tk tv ops s)) /\
      let s' := snd (store_run tk tv ops s) in
      FileOk pos' (t_user s') (disk_file o') (t_map s') B /\ N.of_nat (length (disk_file o')) <= t_len (reopened tk s').
  Proof.
    intros HO I L. destruct (run_ok h ops HO _ _ _ _ I L) as (xs & o1 & pos1 & p1 & -> & SX & I1 & F1 & _). cbn [bind].
    destruct (close_ok klt tk tv _ _ _ _ _ HO I1 F1) as (o2 & B & -> & FO & LN & _). cbn [bind]. do 4 eexists. split; [reflexivity|]. cbv zeta. split; [exact SX|]. split; [exact FO|exact LN].
  Qed.

  Lemma session_create_ok h file user ops : host_ok h -> user_ok user -> legal_run klt tk tv ops (created user) ->
    exists xs d pos B, session klt tk tv h file create user ops = Val (xs, d) /\
      Forall2 same_out xs (fst (store_run tk tv ops (created user))) /\
      let s' := snd (store_run tk tv ops (created user)) in
      FileOk pos (t_user s') d (t_map s') B /\ N.of_nat (length d) <= t_len (reopened tk s').
  Proof.
    intros HO HU L. unfold session. destruct (open_new_ok klt tk tv h file user HO HU) as (o & -> & _ & I). cbn [bind].
    destruct (program_ok _ _ _ _ _ _ HO (I (fun _ => 0%nat)) L) as (xs & o' & pos' & B & E & R). exists xs, (disk_file o'), pos'. eexists. split; [exact E|exact R].
  Qed.
  Lemma session_ok h ops pos d s B : host_ok h -> FileOk pos (t_user s) d (t_map s) B -> t_past s = true -> t_dirty s = false ->
    N.of_nat (length d) <= t_len s -> legal_run klt tk tv ops s ->
    exists xs d' pos' B', session klt tk tv h (Some d) read_write [] ops = Val (xs, d') /\
      Forall2 same_out xs (fst (store_run tk tv ops s)) /\
      let s' := snd (store_run tk tv ops s) in
      FileOk pos' (t_user s') d' (t_map s') B' /\ N.of_nat (length d') <= t_len (reopened tk s').
  Proof.
    intros HO FO HP HD HL L. unfold session. destruct (open_ok klt klt_order tk tv h pos _ _ _ _ [] HO FO) as (o & -> & _ & I). cbn [bind].
    specialize (I _ HL). replace (mkStore (t_map s) true false (t_user s) (t_len s)) with s in I by (destruct s; cbn in *; congruence).
    destruct (program_ok _ _ _ _ _ _ HO I L) as (xs & o' & pos' & B' & E & R). exists xs, (disk_file o'), pos'. eexists. split; [exact E|exact R].
  Qed.
  Lemma sessions_ok l : Forall (fun q => host_ok (fst q)) l -> forall pos d s B, FileOk pos (t_user s) d (t_map s) B -> t_past s = true -> t_dirty s = false ->
    N.of_nat (length d) <= t_len s -> legal_sessions klt tk tv l s ->
    exists xss d', sessions klt tk tv d l = Val (xss, d') /\ Forall2 (Forall2 same_out) xss (fst (store_sessions tk tv l s)).
  Proof.
    induction 1 as [|[h ops] l HO _ IH]; intros pos d s B FO HP HD HL L; cbn [sessions store_sessions legal_sessions] in *.
    - do 2 eexists. split; [reflexivity|constructor].
    - destruct L as (L1 & L2). cbn [fst] in HO. destruct (session_ok _ _ _ _ _ _ HO FO HP HD HL L1) as (xs & d1 & pos1 & B1 & -> & SX & FO1 & HL1). cbn [bind].
      destruct (store_run tk tv ops s) as [ys s1] eqn:ES. cbn [fst snd] in *.
      destruct (IH pos1 d1 (reopened tk s1) B1 FO1 eq_refl eq_refl HL1 L2) as (xss & d' & -> & SXS). cbn [bind].
      destruct (store_sessions tk tv l (reopened tk s1)) as [yss s2]. do 2 eexists. split; [reflexivity|]. now constructor.
  Qed.

  (** *** Crashes *)
  Lemma torn_length a b n : length (torn a b n) = (Nat.min n (length b) + (length a - n))%nat.
  Proof. unfold torn. now rewrite app_length, firstn_length, skipn_length. Qed.
  Lemma fileok_prefix pos user d m B f : FileOk pos user d m B -> same_upto B d f -> (B <= length f)%nat -> N.of_nat (length f) < 2 ^ 63 ->
    FileOk pos user f m B.
  Proof.
    intros (U & T & (P1 & P2) & (link & l & HH & SL & HA & PP & EB & HL & BF) & CM & _) SU LB SF. unfold MapDiskOk.FileOk.
    repeat (split; [assumption|]). split; [|split; [|split; assumption]].
    - split; [|exact P2]. intros k v r H. destruct (P1 _ _ _ H) as (A & _ & Y). specialize (BF _ _ _ H).
      destruct (proj2 T _ _ _ H) as (_ & _ & _ & LT). split; [|lia].
      eapply at_same_upto; [exact SU|exact A|]. rewrite rec_length. lia.
    - exists link, l. split; [|split; [exact SL|split; [|auto]]].
      + eapply at_same_upto; [exact SU|exact HH|]. rewrite hdr_length. lia.
      + eapply at_same_upto; [exact SU|exact HA|]. lia.
  Qed.

  (** An operation that crashes leaves the frozen bytes alone. *)
  Lemma crash_ok h pos o s p op f B d0 F : host_ok h -> Inv h pos o s p -> legal_run klt tk tv [op] s ->
    crash_file tk tv h o op f -> frozen B d0 F pos o s p -> (forall k v, op = DInsert k v -> ~ In k F) ->
    same_upto B d0 f /\ (B <= length f)%nat /\ N.of_nat (length f) < 2 ^ 63.
  Proof.
    intros HO I (FT & L & FT') CF FR SP. assert (LO : N.of_nat (length (disk_file o)) < 2 ^ 63).
    { eapply fits_len; [exact FT|apply I]. }
    assert (NOP : f = disk_file o -> same_upto B d0 f /\ (B <= length f)%nat /\ N.of_nat (length f) < 2 ^ 63).
    { intros ->. destruct FR as (A & B' & _). auto. }
    destruct op as [k v|k| |k| | |]; cbn [crash_file] in CF; auto.
    - destruct CF as (r & o' & n & E & ->). destruct (step_ok _ _ _ _ _ _ HO I FT L) as (x & o1 & pos1 & p1 & E1 & _ & I1 & FR1).
      cbn [disk_step] in E1. rewrite E in E1. cbn [bind] in E1. injection E1 as _ <-.
      assert (LO' : N.of_nat (length (disk_file o')) < 2 ^ 63) by (eapply fits_len; [exact FT'|apply I1]).
      destruct (FR1 _ _ _ FR (SP _ _ eq_refl)) as (S1 & B1 & _). destruct FR as (S0 & B0 & _). split; [|rewrite torn_length; lia].
      intros i Hi. unfold torn. destruct (Nat.ltb_spec i (Nat.min n (length (disk_file o')))) as [X|X].
      + rewrite nth_error_app1 by (rewrite firstn_length; lia). rewrite nth_error_firstn'. destruct (Nat.ltb_spec i n); [|lia]. now apply S1.
      + rewrite nth_error_app2 by (rewrite firstn_length; lia). rewrite firstn_length, nth_error_skipn'. rewrite <- (S0 i Hi). f_equal. lia.
    - destruct CF as (_ & md & st & n & E & ->). destruct (closeWrite_map_ok klt tk tv _ _ _ _ _ HO I FT) as (l & st' & PL & E' & FA).
      rewrite E in E'. injection E' as _ <-. assert (ED : s_data st = disk_file o ++ rec (kbytes l)) by apply FA.
      pose proof (keymap_size klt tk tv pos (t_map s) l (i_typed _ _ _ _ _ _ _ _ I) PL) as KS. destruct FT as (FT1 & _). pose proof (i_len _ _ _ _ _ _ _ _ I).
      destruct FR as (S0 & B0 & _). rewrite ED. split; [|rewrite torn_length, app_length; lia].
      eapply same_upto_trans; [exact S0|]. intros i Hi. unfold torn.
      destruct (Nat.ltb_spec i (Nat.min n (length (disk_file o ++ rec (kbytes l))))) as [X|X].
      + rewrite nth_error_app1 by (rewrite firstn_length; lia). rewrite nth_error_firstn'. destruct (Nat.ltb_spec i n); [|lia]. apply nth_error_app1. lia.
      + rewrite app_length in X. rewrite nth_error_app2 by (rewrite firstn_length, app_length; lia). rewrite firstn_length, app_length, nth_error_skipn'. f_equal. lia.
  Qed.
End DiskRun.

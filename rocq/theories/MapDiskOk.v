(** Proofs about the on-disk map object: the invariant, sessions and crashes. *)
From Coq Require Import List Arith NArith ZArith Bool Permutation Lia.
From Coq Require Import ZifyBool ZifyNat ZifyN.
From Verif Require Import Base CrcModel IoModel CrcSpec IoSpec CrcProofs SwapProofs IoProofs MapObjModel MapObjSpec MapObjProofs MapDiskProofs.
Import ListNotations.
Local Open Scope N_scope.
Local Arguments crc32 : simpl never.

Lemma nodup_fst_fun {A B} (m : list (A * B)) k a b : NoDup (map fst m) -> In (k, a) m -> In (k, b) m -> a = b.
Proof.
  induction m as [|[k' c] m IH]; cbn [map fst In]; [tauto|]. intros ND [E|H] [E'|H']; inversion ND; subst.
  - congruence.
  - inversion E; subst. exfalso. apply H1, in_map_iff. now exists (k, b).
  - inversion E'; subst. exfalso. apply H2, in_map_iff. now exists (k, a).
  - eauto.
Qed.

Section DiskOk.
  Variable klt : value -> value -> bool.
  Hypothesis klt_order : strict_order klt.
  Variables tk tv : ty.
  Notation smap := (fmap (value * nat)).

  Definition typed (m : smap) : Prop :=
    NoDup (map fst m) /\
    forall k v r, In (k, (v, r)) m ->
      has_type klt tk k /\ int_size (length (enc tk k)) /\ has_type klt tv v /\ (length (enc tv v) <= r)%nat.
  Definition placed (pos : value -> nat) (user d : list N) (m : smap) : Prop :=
    (forall k v r, In (k, (v, r)) m ->
      at_ d (pos k) (rec (enc tv v)) /\ (pos k + r + 4 <= length d)%nat /\ (link_pos user + 16 <= pos k)%nat) /\
    (forall k v r k' v' r', In (k, (v, r)) m -> In (k', (v', r')) m -> k <> k' ->
      (pos k + r + 4 <= pos k' \/ pos k' + r' + 4 <= pos k)%nat).
  Definition keymap_of (pos : value -> nat) (m : smap) : list (list N * nat) :=
    map (fun p => (enc tk (fst p), pos (fst p))) m.
  Definition before (pos : value -> nat) (m : smap) (p : nat) : Prop :=
    forall k v r, In (k, (v, r)) m -> (pos k + r + 4 <= p)%nat.
  Definition clean (pos : value -> nat) (user d : list N) (m : smap) (B : nat) : Prop :=
    exists link l, at_ d 0 (hdr user link) /\ N.of_nat link < 2 ^ 63 /\ at_ d link (rec (kbytes l)) /\
      Permutation l (keymap_of pos m) /\ B = (link + length (rec (kbytes l)))%nat /\
      (link_pos user + 16 <= link)%nat /\ before pos m link.
  Definition FileOk (pos : value -> nat) (user d : list N) (m : smap) (B : nat) : Prop :=
    user_ok user /\ typed m /\ placed pos user d m /\ clean pos user d m B /\
    N.of_nat (length m) < 2 ^ 32 /\ N.of_nat (length d) < 2 ^ 63.

  Record Inv (h : host) (pos : value -> nat) (o : disk) (s : store) (p : nat) : Prop := mkInv {
    i_state : d_state o = if t_dirty s then MODIFIED else UNCHANGED;
    i_user : d_user o = t_user s;
    i_out : d_out o = true;
    i_file : file_at (d_stream o) (disk_file o) p;
    i_pos : (p <= length (disk_file o))%nat;
    i_uok : user_ok (t_user s);
    i_typed : typed (t_map s);
    i_placed : placed pos (t_user s) (disk_file o) (t_map s);
    i_index : Permutation (d_map o) (privs (h_e h) (keymap_of pos (t_map s)));
    i_len : N.of_nat (length (disk_file o)) <= t_len s;
    i_past : t_past s = true -> (link_pos (t_user s) + 16 <= p)%nat /\ before pos (t_map s) p;
    i_hdr : exists link, at_ (disk_file o) 0 (hdr (t_user s) link);
    i_clean : t_dirty s = false -> exists B, clean pos (t_user s) (disk_file o) (t_map s) B /\ (t_past s = true -> (B <= p)%nat) }.

  (** *** Looking up keys *)
  Lemma typed_keys m : typed m -> Forall (has_type klt tk) (map fst m).
  Proof.
    intros (_ & H). apply Forall_forall. intros k Hk. apply in_map_iff in Hk. destruct Hk as ([k' [v r]] & E & Hi). cbn in E. subst k'.
    now destruct (H k v r Hi).
  Qed.
  Lemma keymap_keys pos m : map fst (keymap_of pos m) = map (enc tk) (map fst m).
  Proof. unfold keymap_of. rewrite !map_map. reflexivity. Qed.
  Lemma keymap_nodup pos m : typed m -> NoDup (map fst (keymap_of pos m)).
  Proof. intros H. rewrite keymap_keys. apply (enc_nodup klt klt_order tk); [now apply typed_keys|apply H]. Qed.
  Lemma privs_keys e l : map fst (privs e l) = map fst l.
  Proof. unfold privs. rewrite map_map. reflexivity. Qed.
  Lemma index_find e pos m dm k : typed m -> Permutation dm (privs e (keymap_of pos m)) -> has_type klt tk k ->
    umap_find (enc tk k) dm = option_map (fun _ => priv e (pos k)) (lookup k m).
  Proof.
    intros T P Hk. pose proof (keymap_nodup pos m T) as ND. rewrite <- (privs_keys e) in ND.
    assert (NDm : NoDup (map fst dm)) by (eapply Permutation_NoDup; [apply Permutation_map, Permutation_sym, P|exact ND]).
    destruct (lookup k m) as [[v r]|] eqn:E; cbn [option_map].
    - apply In_umap_find; [exact NDm|]. eapply Permutation_in; [apply Permutation_sym, P|]. apply lookup_In in E.
      apply in_map_iff. exists (enc tk k, pos k). split; [reflexivity|]. apply in_map_iff. now exists (k, (v, r)).
    - apply umap_find_none. intros X. apply lookup_none in E. apply E.
      apply (Permutation_in (l' := map fst (privs e (keymap_of pos m)))) in X; [|now apply Permutation_map].
      rewrite privs_keys, keymap_keys in X. apply in_map_iff in X. destruct X as (y & Ey & Hy).
      pose proof (typed_keys m T) as TK. rewrite Forall_forall in TK.
      replace k with y; [exact Hy|]. apply (enc_inj klt klt_order tk); auto.
  Qed.
  Lemma inv_find h pos o s p k : Inv h pos o s p -> has_type klt tk k ->
    umap_find (enc tk k) (d_map o) = option_map (fun _ => priv (h_e h) (pos k)) (lookup k (t_map s)).
  Proof. intros I Hk. eapply index_find; [apply I|apply I|exact Hk]. Qed.
  Lemma inv_open h pos o s p {A} (a b : A) : Inv h pos o s p -> match d_state o with INIT => a | _ => b end = b.
  Proof. intros I. rewrite (i_state _ _ _ _ _ I). now destruct (t_dirty s). Qed.

  Lemma fits_len s n : fits tk s -> N.of_nat n <= t_len s -> N.of_nat n < 2 ^ 63.
  Proof. intros (H & _) L. lia. Qed.
  Lemma inv_pos_small h pos o s p k v r : Inv h pos o s p -> fits tk s -> In (k, (v, r)) (t_map s) -> N.of_nat (pos k) < 2 ^ 63.
  Proof.
    intros I F Hi. destruct (proj1 (i_placed _ _ _ _ _ I) _ _ _ Hi) as (_ & L & _). apply (fits_len s _ F).
    pose proof (i_len _ _ _ _ _ I). lia.
  Qed.

  (** *** get *)
  Lemma get_ok h pos o s p k : Inv h pos o s p -> fits tk s -> has_type klt tk k ->
    exists o' p', disk_get klt tk tv h k o =
      Val (match lookup k (t_map s) with Some (v, _) => (0%nat, Some v, o') | None => (1%nat, None, o') end) /\
      disk_file o' = disk_file o /\ Inv h pos o' (snd (store_step tk tv (DGet k) s)) p' /\
      (t_past (snd (store_step tk tv (DGet k) s)) = true -> p' = p) /\
      (forall v r, lookup k (t_map s) = Some (v, r) -> p' = (pos k + length (rec (enc tv v)))%nat).
  Proof.
    intros I F Hk. unfold disk_get. rewrite (inv_open _ _ _ _ _ _ _ I), (key_string_ok klt) by exact Hk. cbn [bind].
    rewrite (inv_find _ _ _ _ _ _ I Hk). cbn [store_step]. destruct (lookup k (t_map s)) as [[v r]|] eqn:E; cbn [option_map].
    2:{ exists o, p. split; [reflexivity|]. split; [reflexivity|]. split; [exact I|]. split; [reflexivity|discriminate]. }
    apply lookup_In in E. destruct (i_typed _ _ _ _ _ I) as (_ & HT). destruct (HT _ _ _ E) as (_ & _ & Hv & Lv).
    destruct (proj1 (i_placed _ _ _ _ _ I) _ _ _ E) as (HA & HL & HH).
    rewrite from_private by (eapply inv_pos_small; eassumption).
    pose proof (file_at_reset _ _ _ (file_at_seek_to _ _ _ (pos k) (i_file _ _ _ _ _ I))) as F1.
    destruct (read_record_ok klt (h_e h) tv v _ _ _ klt_order Hv F1 eq_refl HA) as (st1 & st2 & -> & E2 & E3 & F2).
    cbn [bind]. rewrite E2. cbn [bind]. rewrite E3. cbn [bind]. rewrite N.eqb_refl. cbn [negb].
    do 2 eexists. split; [reflexivity|]. cbn [snd].
    assert (FD : disk_file (with_stream st2 o) = disk_file o) by (unfold disk_file at 1, with_stream; cbn [d_stream]; apply F2).
    split; [exact FD|]. split; [|split; [discriminate|intros v' r' X; inversion X; subst; reflexivity]]. destruct I. constructor; rewrite ?FD; cbn [t_dirty t_user t_map t_past t_len with_stream d_state d_user d_out d_map d_stream]; try assumption.
    - pose proof (at_end_of _ _ _ HA (rec_nonempty _)). lia.
    - discriminate.
    - intros Hd. destruct (i_clean0 Hd) as (B & HB & _). exists B. split; [exact HB|discriminate].
  Qed.

  (** *** insert *)
  Definition written (s : store) (k : value) (pos : value -> nat) (p : nat) : nat :=
    match lookup k (t_map s) with Some _ => pos k | None => p end.
  Lemma put_typed' m k v r : typed m -> has_type klt tk k -> int_size (length (enc tk k)) -> has_type klt tv v ->
    (length (enc tv v) <= r)%nat -> typed (put k (v, r) m).
  Proof.
    intros (ND & HT) Hk Hi Hv HL. split; [now apply put_nodup|]. intros k' v' r' H. apply put_In in H; [|exact ND].
    destruct H as [[-> E]|[N H]]; [inversion E; subst; auto|]. now apply HT.
  Qed.
  Lemma keymap_put_old pos m k a : NoDup (map fst m) -> lookup k m <> None -> keymap_of pos (put k a m) = keymap_of pos m.
  Proof.
    intros ND H. unfold keymap_of. rewrite <- !(map_map fst (fun k => (enc tk k, pos k))). f_equal.
    rewrite put_keys. destruct (lookup k m); [reflexivity|congruence].
  Qed.

  Lemma update_ok h pos o s p k v v0 r : Inv h pos o s p -> fits tk s -> has_type klt tk k -> has_type klt tv v ->
    int_size (length (enc tk k)) -> lookup k (t_map s) = Some (v0, r) -> (length (enc tv v) <= r)%nat ->
    exists o' p', disk_insert tk tv h k v o = Val (0%nat, o') /\
      disk_file o' = overwrite (disk_file o) (pos k) (rec (enc tv v)) /\
      Inv h pos o' (mkStore (put k (v, r) (t_map s)) false true (t_user s) (t_len s)) p'.
  Proof.
    intros I F Hk Hv Hi E Hr. unfold disk_insert. rewrite (inv_open _ _ _ _ _ _ _ I), (key_string_ok klt) by exact Hk. cbn [bind].
    rewrite (inv_find _ _ _ _ _ _ I Hk), E. cbn [option_map]. rewrite (i_out _ _ _ _ _ I).
    pose proof (lookup_In _ _ _ E) as HI. destruct (proj1 (i_placed _ _ _ _ _ I) _ _ _ HI) as (HA & HL & HH).
    rewrite from_private by (eapply inv_pos_small; eassumption).
    pose proof (file_at_seek_to _ _ _ (pos k) (i_file _ _ _ _ _ I)) as F1.
    destruct (write_record_ok klt h tv v _ _ _ Hv F1) as (st & -> & F2). cbn [bind].
    eexists. exists (pos k + length (rec (enc tv v)))%nat. split; [reflexivity|]. set (d' := overwrite (disk_file o) (pos k) (rec (enc tv v))) in *.
    assert (FD : forall a b c, disk_file (mkDisk a b c true st) = d') by (intros; apply F2).
    rewrite FD. split; [reflexivity|]. pose proof (rec_length (enc tv v)) as RL.
    assert (PL : (pos k <= length (disk_file o))%nat) by lia.
    assert (LD : length d' = length (disk_file o)) by (subst d'; rewrite overwrite_length by exact PL; lia).
    destruct I as [S U O Fi P UO T PLc IX LEN PA HD CL].
    constructor; rewrite ?FD; cbn [t_dirty t_user t_map t_past t_len d_state d_user d_out d_map d_stream]; try assumption; try reflexivity.
    - rewrite LD. lia.
    - now apply put_typed'.
    - destruct T as (ND & HT). destruct PLc as (P1 & P2). split.
      + intros k' v' r' H. apply put_In in H; [|exact ND]. destruct H as [[-> E']|[N H]].
        * inversion E'; subst v' r'. split; [now apply at_written|]. rewrite LD. auto.
        * destruct (P1 _ _ _ H) as (A & L & H'). rewrite LD. split; [|auto]. apply at_elsewhere; [exact PL|exact A|]. rewrite rec_length.
          destruct (P2 _ _ _ _ _ _ HI H (fun X => N (eq_sym X))) as [D|D].
          -- right. rewrite RL. lia.
          -- left. destruct (HT _ _ _ H) as (_ & _ & _ & LT). lia.
      + intros k1 v1 r1 k2 v2 r2 H1 H2 N. apply put_In in H1; [|exact ND]. apply put_In in H2; [|exact ND].
        destruct H1 as [[-> E1]|[N1 H1]], H2 as [[-> E2]|[N2 H2]]; try congruence.
        * inversion E1; subst. eapply P2; [exact HI|exact H2|exact N].
        * inversion E2; subst. eapply P2; [exact H1|exact HI|exact N].
        * eapply P2; eassumption.
    - rewrite keymap_put_old; [exact IX|apply T|congruence].
    - rewrite LD. exact LEN.
    - discriminate.
    - destruct HD as (link & HD). exists link. apply at_elsewhere; [exact PL|exact HD|]. rewrite hdr_length. lia.
    - discriminate.
  Qed.
  Lemma add_ok h pos o s p k v : host_ok h -> Inv h pos o s p -> fits tk s -> has_type klt tk k -> has_type klt tv v ->
    int_size (length (enc tk k)) -> lookup k (t_map s) = None -> t_past s = true ->
    let pos' := fun k' => if value_eqb k k' then p else pos k' in
    exists o', disk_insert tk tv h k v o = Val (0%nat, o') /\
      disk_file o' = overwrite (disk_file o) p (rec (enc tv v)) /\
      Inv h pos' o' (mkStore (put k (v, length (enc tv v)) (t_map s)) true true (t_user s) (t_len s + N.of_nat (length (enc tv v)) + 4))
        (p + length (rec (enc tv v))).
  Proof.
    intros (HZ & HI) I F Hk Hv Hi E Hp pos'. unfold disk_insert. rewrite (inv_open _ _ _ _ _ _ _ I), (key_string_ok klt) by exact Hk. cbn [bind].
    rewrite (inv_find _ _ _ _ _ _ I Hk), E. cbn [option_map]. rewrite (i_out _ _ _ _ _ I).
    pose proof (i_file _ _ _ _ _ I) as F1. rewrite (file_at_position _ _ _ F1), HZ.
    assert (SP : N.of_nat p < 2 ^ 63).
    { apply (fits_len s _ F). pose proof (i_len _ _ _ _ _ I). pose proof (i_pos _ _ _ _ _ I). lia. }
    rewrite to_private by exact SP. cbn [bind].
    destruct (write_record_ok klt h tv v _ _ _ Hv F1) as (st & -> & F2). cbn [bind].
    eexists. split; [reflexivity|]. set (d' := overwrite (disk_file o) p (rec (enc tv v))) in *.
    assert (FD : forall a b c, disk_file (mkDisk a b c true st) = d') by (intros; apply F2).
    rewrite FD. split; [reflexivity|]. pose proof (rec_length (enc tv v)) as RL.
    pose proof (inv_find _ _ _ _ _ _ I Hk) as FN. rewrite E in FN. cbn [option_map] in FN.
    destruct I as [S U O Fi P UO T PLc IX LEN PA HD CL]. destruct (PA Hp) as (PH & PB).
    assert (LD : length d' = Nat.max (length (disk_file o)) (p + length (rec (enc tv v)))) by (subst d'; apply overwrite_length, P).
    assert (PO : forall k', k' <> k -> pos' k' = pos k').
    { intros k' N. unfold pos'. destruct (value_eqb k k') eqn:X; [|reflexivity]. apply value_eqb_eq in X. congruence. }
    assert (PK : pos' k = p) by (unfold pos'; now rewrite (proj2 (value_eqb_eq k k) eq_refl)).
    assert (NI : forall a, ~ In (k, a) (t_map s)).
    { intros a X. apply lookup_none in E. apply E. apply in_map_iff. now exists (k, a). }
    pose proof T as (ND & HT). pose proof PLc as (P1 & P2).
    assert (PI : forall k' v' r', In (k', (v', r')) (put k (v, length (enc tv v)) (t_map s)) ->
                 (k' = k /\ v' = v /\ r' = length (enc tv v)) \/ (k' <> k /\ In (k', (v', r')) (t_map s))).
    { intros k' v' r' H. apply put_In in H; [|exact ND]. destruct H as [[-> X]|[N H]]; [inversion X; auto|auto]. }
    constructor; rewrite ?FD; cbn [t_dirty t_user t_map t_past t_len d_state d_user d_out d_map d_stream]; try assumption; try reflexivity.
    - rewrite LD. lia.
    - now apply put_typed'.
    - split.
      + intros k' v' r' H. destruct (PI _ _ _ H) as [(-> & -> & ->)|(N & H')].
        * rewrite PK. split; [now apply at_written|]. rewrite LD, RL. lia.
        * rewrite (PO _ N). destruct (P1 _ _ _ H') as (A & L & HH). split; [|rewrite LD; lia].
          apply at_elsewhere; [exact P|exact A|]. left. rewrite rec_length. destruct (HT _ _ _ H') as (_ & _ & _ & LT).
          specialize (PB _ _ _ H'). lia.
      + intros k1 v1 r1 k2 v2 r2 H1 H2 N. destruct (PI _ _ _ H1) as [(-> & -> & ->)|(N1 & H1')], (PI _ _ _ H2) as [(-> & -> & ->)|(N2 & H2')].
        * congruence.
        * rewrite PK, (PO _ N2). right. eapply PB, H2'.
        * rewrite PK, (PO _ N1). left. eapply PB, H1'.
        * rewrite (PO _ N1), (PO _ N2). eapply P2; eassumption.
    - unfold umap_insert. rewrite FN.
      assert (KP : Permutation ((enc tk k, p) :: keymap_of pos (t_map s)) (keymap_of pos' (put k (v, length (enc tv v)) (t_map s)))).
      { unfold keymap_of. rewrite <- !(map_map fst (fun k0 => (enc tk k0, pos' k0))), put_keys, E, map_app. cbn [map].
        rewrite PK. eapply Permutation_trans; [apply Permutation_cons_append|]. apply Permutation_app_tail. rewrite map_map.
        erewrite map_ext_in; [apply Permutation_refl|]. intros [k' a] Hin. cbn [fst]. rewrite PO; [reflexivity|].
        intros ->. now apply NI in Hin. }
      eapply Permutation_trans; [|apply Permutation_map, KP]. cbn [map fst snd]. now constructor.
    - rewrite LD, RL. lia.
    - intros _. split; [lia|]. intros k' v' r' H. destruct (PI _ _ _ H) as [(-> & -> & ->)|(N & H')].
      + rewrite PK, RL. lia.
      + rewrite (PO _ N). specialize (PB _ _ _ H'). lia.
    - destruct HD as (link & HD). exists link. apply at_elsewhere; [exact P|exact HD|]. rewrite hdr_length. lia.
    - discriminate.
  Qed.

  (** *** flush and close *)
  Lemma typed_entries h pos o s p : Inv h pos o s p -> fits tk s -> Forall entry_ok (keymap_of pos (t_map s)).
  Proof.
    intros I F. apply Forall_forall. intros q Hq. apply in_map_iff in Hq. destruct Hq as ([k [v r]] & <- & Hi).
    destruct (proj2 (i_typed _ _ _ _ _ I) _ _ _ Hi) as (Hk & HS & _). unfold entry_ok. cbn [fst snd].
    split; [apply (enc_bytes klt), Hk|]. split; [exact HS|]. eapply inv_pos_small; eassumption.
  Qed.
  Lemma keymap_size pos m l : typed m -> Permutation l (keymap_of pos m) -> N.of_nat (length (rec (kbytes l))) = keymap_len tk m.
  Proof.
    intros (_ & HT) P. rewrite rec_length. unfold kbytes. rewrite app_length, mem_length.
    assert (X : forall l', N.of_nat (length (concat (map ebytes l'))) = fold_right (fun q n => N.of_nat (length (fst q)) + 20 + n) 0 l').
    { induction l' as [|q l' IH]; cbn [map concat fold_right]; [reflexivity|]. rewrite app_length. unfold ebytes at 1.
      rewrite !app_length, int_bytes_length, mem_length. lia. }
    assert (Y : fold_right (fun q n => N.of_nat (length (fst q)) + 20 + n) 0 l =
                fold_right (fun q n => N.of_nat (length (fst q)) + 20 + n) 0 (keymap_of pos m)).
    { clear - P. induction P; cbn [fold_right]; lia. }
    assert (Z : fold_right (fun q n => N.of_nat (length (fst q)) + 20 + n) 0 (keymap_of pos m) =
                fold_right (fun p n => N.of_nat (nbytes tk (fst p)) + 20 + n) 0 m).
    { clear - HT. induction m as [|[k [v r]] m IH]; cbn [keymap_of map fold_right fst]; [reflexivity|].
      rewrite (nbytes_ok klt) by (eapply HT; left; reflexivity). f_equal. apply IH. intros. eapply HT. right. eassumption. }
    unfold keymap_len. specialize (X l). lia.
  Qed.
  Lemma iter_split h pos o s p : host_ok h -> Inv h pos o s p ->
    exists l, h_iter h (d_map o) = privs (h_e h) l /\ Permutation l (keymap_of pos (t_map s)).
  Proof.
    intros (_ & HI) I. assert (P : Permutation (h_iter h (d_map o)) (privs (h_e h) (keymap_of pos (t_map s)))).
    { eapply Permutation_trans; [apply HI|apply I]. }
    apply Permutation_map_inv in P. destruct P as (l & E & P). exists l. split; [exact E|]. now apply Permutation_sym.
  Qed.

  Lemma closeWrite_map_ok h pos o s p : host_ok h -> Inv h pos o s p -> fits tk s ->
    exists l st, Permutation l (keymap_of pos (t_map s)) /\
      closeWrite_map h o = Val (priv (h_e h) (length (disk_file o)), st) /\
      file_at st (disk_file o ++ rec (kbytes l)) (length (disk_file o) + length (rec (kbytes l))).
  Proof.
    intros HO I F. destruct (iter_split _ _ _ _ _ HO I) as (l & EL & PL). exists l. unfold closeWrite_map.
    pose proof (file_at_end _ _ _ (i_file _ _ _ _ _ I)) as F1. set (st0 := readwriter_seekEnd 0 (d_stream o)) in *.
    rewrite (file_at_position _ _ _ F1). destruct HO as (HZ & HI). rewrite HZ, to_private.
    2:{ apply (fits_len s _ F), I. }
    cbn [bind]. rewrite EL, (i_out _ _ _ _ _ I).
    assert (EO : Forall entry_ok l).
    { eapply Permutation_Forall; [apply Permutation_sym, PL|eapply typed_entries; eassumption]. }
    assert (CL : N.of_nat (length l) < 2 ^ 32).
    { rewrite (Permutation_length PL). unfold keymap_of. rewrite map_length. apply F. }
    destruct (write_map_ok (h_e h) l st0 _ _ EO CL F1) as (st & -> & F2). cbn [bind]. exists st. split; [exact PL|]. split; [reflexivity|].
    rewrite overwrite_data in F2 by lia. rewrite firstn_all, skipn_all2, app_nil_r in F2 by lia. exact F2.
  Qed.

  Lemma closeWrite_ok h pos o s p : host_ok h -> Inv h pos o s p -> fits tk s ->
    exists st B, closeWrite h o = Val st /\ let d' := s_data st in
      file_at st d' (length d') /\ same_upto (link_pos (t_user s)) (disk_file o) d' /\
      N.of_nat (length d') = N.of_nat (length (disk_file o)) + keymap_len tk (t_map s) /\
      placed pos (t_user s) d' (t_map s) /\ clean pos (t_user s) d' (t_map s) B /\ (B <= length d')%nat /\
      (exists link, at_ d' 0 (hdr (t_user s) link)) /\
      before pos (t_map s) (length d') /\ (link_pos (t_user s) + 16 <= length d')%nat.
  Proof.
    intros HO I F. destruct (closeWrite_map_ok _ _ _ _ _ HO I F) as (l & st & PL & EM & F1). unfold closeWrite. rewrite EM. cbn [bind].
    unfold closeWrite_link. rewrite (i_user _ _ _ _ _ I).
    set (d := disk_file o) in *. set (L := length d) in *. set (u := t_user s) in *.
    replace (length file_magic + 4 + length u + 4 + 4)%nat with (link_pos u) by (unfold link_pos; lia).
    pose proof (file_at_seek _ _ _ (link_pos u) (file_at_seek _ _ _ 0 F1)) as F2.
    assert (SL : N.of_nat L < 2 ^ 63) by (apply (fits_len s _ F), I).
    rewrite write_priv_ok by exact SL. cbn [bind].
    pose proof (file_at_end _ _ _ (file_at_emit _ _ _ (mem BigE 16 (N.of_nat L)) F2)) as F3.
    set (d' := overwrite (d ++ rec (kbytes l)) (link_pos u) (mem BigE 16 (N.of_nat L))) in *.
    set (st' := readwriter_seekEnd 0 _) in *. pose proof (i_placed _ _ _ _ _ I) as (P1 & P2). destruct (i_hdr _ _ _ _ _ I) as (link & HD).
    assert (HL : (link_pos u + 16 <= L)%nat).
    { pose proof (at_end_of _ _ _ HD) as X. rewrite hdr_length in X. apply X. intros Y. apply (f_equal (@length N)) in Y. rewrite hdr_length in Y. cbn in Y. lia. }
    assert (PL' : (link_pos u <= length (d ++ rec (kbytes l)))%nat) by (rewrite app_length; fold L; lia).
    assert (LD : length d' = (L + length (rec (kbytes l)))%nat).
    { unfold d'. rewrite overwrite_length by exact PL'. rewrite mem_length, app_length. fold L. lia. }
    assert (AP : forall q bs, at_ d q bs -> (q + length bs <= L)%nat -> at_ (d ++ rec (kbytes l)) q bs).
    { intros q bs A HB. eapply at_same_upto; [|exact A|exact HB]. intros i Hi. now rewrite nth_error_app1 by exact Hi. }
    assert (HH : at_ d' 0 (hdr u L)).
    { unfold hdr in HD |- *. apply at_app in HD. destruct HD as (H0 & _). apply at_app. split.
      - apply at_elsewhere; [exact PL'|apply AP; [exact H0|rewrite hdr0_length; lia]|rewrite hdr0_length; lia].
      - rewrite hdr0_length. cbn [Nat.add]. now apply at_written. }
    assert (BF : before pos (t_map s) L).
    { intros k v r H. now destruct (P1 _ _ _ H) as (_ & X & _). }
    exists st', (L + length (rec (kbytes l)))%nat. split; [reflexivity|]. cbv zeta.
    replace (s_data st') with d' by (symmetry; apply F3).
    split; [exact F3|]. split.
    { intros i Hi. unfold d'. pose proof (overwrite_upto (d ++ rec (kbytes l)) (link_pos u) (mem BigE 16 (N.of_nat L)) (link_pos u) PL' (le_n _) i Hi) as X.
      rewrite X. apply nth_error_app1. fold L. lia. }
    split; [rewrite LD, <- (keymap_size pos (t_map s) l) by (apply I || exact PL); lia|].
    split.
    { split; [|exact P2]. intros k v r H. destruct (P1 _ _ _ H) as (A & X & Y). destruct (proj2 (i_typed _ _ _ _ _ I) _ _ _ H) as (_ & _ & _ & LT).
      split; [|rewrite LD; fold u in Y; fold d L in X; lia].
      apply at_elsewhere; [exact PL'|apply AP; [exact A|rewrite rec_length; fold d L in X; lia]|right; rewrite mem_length; exact Y]. }
    split.
    { exists L, l. split; [exact HH|]. split; [exact SL|]. split; [|auto].
      apply at_elsewhere; [exact PL'| |right; rewrite mem_length; exact HL]. intros i Hi. rewrite nth_error_app2 by (fold L; lia). f_equal. fold L. lia. }
    split; [lia|]. split; [now exists L|]. split; [|lia]. intros k v r H. specialize (BF _ _ _ H). lia.
  Qed.

  Lemma flush_ok h pos o s p : host_ok h -> Inv h pos o s p -> fits tk s ->
    exists o' p', disk_flush h o = Val o' /\ Inv h pos o' (snd (store_step tk tv DFlush s)) p' /\
      same_upto (link_pos (t_user s)) (disk_file o) (disk_file o').
  Proof.
    intros HO I F. unfold disk_flush. rewrite (i_state _ _ _ _ _ I). cbn [store_step snd]. destruct (t_dirty s) eqn:D.
    2:{ exists o, p. split; [reflexivity|]. split; [exact I|]. intros i _. reflexivity. }
    destruct (closeWrite_ok _ _ _ _ _ HO I F) as (st & B & -> & F1 & SU & LN & PL & CL & BL & HD & BF & HL). cbn [bind].
    eexists. exists (length (s_data st)). split; [reflexivity|]. split; [|exact SU].
    destruct I. constructor; unfold disk_file in *; cbn [t_dirty t_user t_map t_past t_len d_state d_user d_out d_map d_stream]; try assumption; try reflexivity.
    - lia.
    - auto.
    - intros _. exists B. auto.
  Qed.

  Lemma close_ok h pos o s p : host_ok h -> Inv h pos o s p -> fits tk s ->
    exists o' B, disk_close h o = Val o' /\ FileOk pos (t_user s) (disk_file o') (t_map s) B /\
      N.of_nat (length (disk_file o')) <= t_len (reopened tk s) /\
      same_upto (link_pos (t_user s)) (disk_file o) (disk_file o').
  Proof.
    intros HO I F. unfold disk_close. rewrite (i_state _ _ _ _ _ I). unfold reopened. cbn [t_len]. destruct (t_dirty s) eqn:D.
    - destruct (closeWrite_ok _ _ _ _ _ HO I F) as (st & B & -> & F1 & SU & LN & PL & CL & BL & HD & BF & HL). cbn [bind].
      eexists. exists B. split; [reflexivity|]. unfold disk_file at 1 2 4. cbn [d_stream]. destruct I. destruct F as (F0 & F2).
      split; [unfold FileOk; repeat (split; [assumption|]); lia|]. split; [lia|exact SU].
    - destruct (i_clean _ _ _ _ _ I D) as (B & CL & _). eexists. exists B. split; [reflexivity|].
      unfold disk_file at 1 2 4. cbn [d_stream]. fold (disk_file o). destruct I. destruct F as (F0 & F2).
      split; [unfold FileOk; repeat (split; [assumption|]); lia|]. split; [assumption|]. intros i _. reflexivity.
  Qed.

  (** *** open *)
  Lemma open_new_ok h file user : host_ok h -> user_ok user ->
    exists o, disk_open h file create (snd (disk_insertUserdata user new_disk)) = Val o /\
      disk_file o = hdr user (link_pos user) /\ forall pos, Inv h pos o (created user) (link_pos user + 16).
  Proof.
    intros (HZ & _) HU. unfold disk_open. cbn [new_disk disk_insertUserdata d_state snd d_user d_map d_out d_stream].
    unfold fstream_open, create. cbn [m_out m_trunc]. unfold checkForNewFile. cbn [orb m_trunc].
    destruct (write_header_ok (h_e h) user HU) as (st & E & F).
    assert (X : match file with None => @Some (list N) [] | Some _ => Some [] end = Some []) by now destruct file.
    rewrite HZ.
    replace (write_header DivGivesZero (h_e h) user (file_readwriter [])) with (Val st) by (symmetry; exact E). cbn [bind].
    eexists. split; [reflexivity|]. unfold disk_file. cbn [d_stream]. split; [apply F|]. intros pos.
    assert (ED : s_data st = hdr user (link_pos user)) by apply F.
    constructor; unfold disk_file; cbn [created t_dirty t_user t_map t_past t_len d_state d_user d_out d_map d_stream]; rewrite ?ED; try reflexivity; try assumption.
    - rewrite hdr_length. lia.
    - split; [constructor|]. intros ? ? ? [].
    - split; [intros ? ? ? []|intros ? ? ? ? ? ? []].
    - rewrite hdr_length. unfold header_len, link_pos. lia.
    - intros _. split; [lia|]. intros ? ? ? [].
    - exists (link_pos user). intros i Hi. reflexivity.
    - discriminate.
  Qed.

  Lemma open_ok h pos user d m B u0 : host_ok h -> FileOk pos user d m B ->
    exists o, disk_open h (Some d) read_write (snd (disk_insertUserdata u0 new_disk)) = Val o /\ disk_file o = d /\
      forall len, N.of_nat (length d) <= len -> Inv h pos o (mkStore m true false user len) B.
  Proof.
    intros HO (HU & T & PL & CL & CM & SD). unfold disk_open. cbn [new_disk disk_insertUserdata d_state snd d_user d_map d_out d_stream].
    unfold fstream_open, read_write. cbn [m_out m_trunc]. unfold checkForNewFile. cbn [orb m_trunc].
    pose proof CL as (link & l & HH & SL & HA & PP & EB & HL & BF).
    destruct (read_header_ok (h_e h) user link d _ HU SL HH (file_at_open d)) as (st & -> & F1). cbn [bind].
    assert (EO : Forall entry_ok l).
    { eapply Permutation_Forall; [apply Permutation_sym, PP|]. apply Forall_forall. intros q Hq. apply in_map_iff in Hq.
      destruct Hq as ([k [v r]] & <- & Hi). destruct (proj2 T _ _ _ Hi) as (Hk & HS & _). unfold entry_ok. cbn [fst snd].
      split; [apply (enc_bytes klt), Hk|]. split; [exact HS|]. destruct (proj1 PL _ _ _ Hi) as (_ & X & _). lia. }
    assert (CM' : N.of_nat (length l) < 2 ^ 32).
    { rewrite (Permutation_length PP). unfold keymap_of. now rewrite map_length. }
    assert (ND : NoDup (map fst l)).
    { eapply Permutation_NoDup; [apply Permutation_map, Permutation_sym, PP|]. now apply keymap_nodup. }
    destruct (read_map_ok (h_e h) l link d st _ EO CM' SL ND F1 HA) as (dm & st' & -> & PM & F2). cbn [bind].
    eexists. split; [reflexivity|]. unfold disk_file. cbn [d_stream]. assert (ED : s_data st' = d) by apply F2. split; [exact ED|].
    intros len HLen. pose proof (at_end_of _ _ _ HA (rec_nonempty _)) as XE. subst B.
    constructor; unfold disk_file; cbn [t_dirty t_user t_map t_past t_len d_state d_user d_out d_map d_stream]; rewrite ?ED; try reflexivity; try assumption.
    - eapply Permutation_trans; [exact PM|]. now apply Permutation_map.
    - intros _. split; [lia|]. intros k v r H. specialize (BF _ _ _ H). lia.
    - exists link. exact HH.
    - intros _. exists (link + length (rec (kbytes l)))%nat. split; [exact CL|lia].
  Qed.
End DiskOk.

(** Proofs about the on-disk map object: histories that lose data, traps, read-only files, several files. *)
From Coq Require Import List Arith NArith ZArith Bool Permutation Lia.
From Coq Require Import ZifyBool ZifyNat ZifyN.
From Verif Require Import Base CrcModel IoModel CrcSpec IoSpec CrcProofs SwapProofs IoProofs MapObjModel MapObjSpec MapObjProofs MapDiskProofs MapDiskOk MapDiskRun MapDiskMore.
Import ListNotations.
Local Open Scope N_scope.
Local Arguments crc32 : simpl never.

(** ** Division by zero *)
Lemma open_traps h file user o : h_zd h = DivTraps -> d_state o = INIT -> d_user o = user -> user_ok user -> disk_open h file create o = Undef.
Proof.
  intros HZ HI HU (U1 & U2). unfold disk_open. rewrite HI. unfold fstream_open, create. cbn [m_out m_trunc].
  unfold checkForNewFile. cbn [orb m_trunc]. unfold write_header. destruct magic_ok as [M1 M2].
  rewrite write_desc_ok by assumption. cbn [bind]. rewrite write_prim_ok by apply swappable4. cbn [bind].
  rewrite HU, write_desc_ok by assumption. cbn [bind]. rewrite HZ, traps_undefined. reflexivity.
Qed.
Lemma insert_traps klt tk tv h k v o : h_zd h = DivTraps -> d_state o <> INIT -> has_type klt tk k -> disk_exist tk h k o = Val false ->
  disk_insert tk tv h k v o = Undef.
Proof.
  intros HZ HI Hk. unfold disk_exist, disk_insert. destruct (d_state o); [congruence| |];
  rewrite (key_string_ok klt) by exact Hk; cbn [bind]; destruct (umap_find (enc tk k) (d_map o)); intros E; try discriminate;
  rewrite HZ, traps_undefined; reflexivity.
Qed.
Lemma close_traps h o : h_zd h = DivTraps -> d_state o = MODIFIED -> disk_close h o = Undef /\ disk_flush h o = Undef.
Proof.
  intros HZ HI. unfold disk_close, disk_flush. rewrite HI. unfold closeWrite, closeWrite_map. rewrite HZ, traps_undefined. split; reflexivity.
Qed.
Lemma open_missing h o : d_state o = INIT -> disk_open h None read_write o = Abort.
Proof. intros H. unfold disk_open. rewrite H. reflexivity. Qed.

(** ** Files opened for reading only *)
Definition read_only (o : disk) : disk := mkDisk (d_state o) (d_user o) (d_map o) false (d_stream o).
Lemma open_read_only h d o : disk_open h (Some d) (mkMode false false) o = bind (disk_open h (Some d) read_write o) (fun o => Val (read_only o)).
Proof.
  unfold disk_open. destruct (d_state o); [|reflexivity|reflexivity]. unfold fstream_open, read_write, checkForNewFile. cbn [m_out m_trunc orb].
  destruct (read_header (h_e h) (file_readwriter d)) as [[[u md] st]| |]; cbn [bind]; try reflexivity.
  destruct (read_map (h_e h) md (d_map o) st) as [[m st']| |]; reflexivity.
Qed.
Lemma get_read_only klt tk tv h k o : disk_get klt tk tv h k (read_only o) = bind (disk_get klt tk tv h k o) (fun '(r, v, o) => Val (r, v, read_only o)).
Proof.
  unfold disk_get, read_only. destruct o as [s u m b st]. cbn [d_state d_user d_map d_out d_stream]. destruct s; [reflexivity| |];
  (destruct (key_string (h_e h) tk k); cbn [bind]; try reflexivity; destruct (umap_find a m) as [q|]; [|reflexivity];
   destruct (read_val klt (h_e h) tv (resetChecksum (seek_to (convertFromPrivate (h_e h) q) st))) as [[v st1]| |]; cbn [bind]; try reflexivity;
   destruct (getChecksum st1); cbn [bind]; try reflexivity; destruct (read_prim (h_e h) 4 st1) as [[c st2]| |]; cbn [bind]; try reflexivity;
   destruct (negb (c =? a0)); reflexivity).
Qed.

(** Writing to a failed stream does nothing. *)
Definition dead (st st' : stream) : Prop := s_fail st' = true /\ s_data st' = s_data st /\ coherent st' /\ (s_crc st <> None -> s_crc st' <> None).
Lemma dead_refl st : s_fail st = true -> coherent st -> dead st st.
Proof. repeat split; auto. Qed.
Lemma dead_trans a b c : dead a b -> dead b c -> dead a c.
Proof. intros (F1 & D1 & C1 & K1) (F2 & D2 & C2 & K2). repeat split; auto. congruence. Qed.
Lemma dead_emit bs st : s_fail st = true -> coherent st -> dead st (emit bs st).
Proof.
  intros H C. repeat split; [| |now apply emit_coherent|]; unfold emit, put_bytes, add_crc, with_crc; cbn [s_fail]; rewrite H; cbn; auto.
  destruct (s_crc st); cbn; congruence.
Qed.
Lemma write_priv_any e q st : exists bs, write_priv e q st = Val (emit bs st).
Proof.
  unfold write_priv, write_array. pose proof (mem_length e 8 (fst q)) as L1. pose proof (mem_length e 8 (snd q)) as L2.
  destruct (big_endian e) eqn:BE; [eexists; reflexivity|].
  assert (B : bytes_ok (priv_mem e q)) by (apply bytes_ok_app; split; apply mem_ok).
  assert (L : length (priv_mem e q) = 16%nat) by (unfold priv_mem; rewrite app_length, L1, L2; lia).
  assert (X : forall b, length b = 16%nat -> bytes_ok b -> byte_swap e b 16 1 = Val (rev b)).
  { intros b HL HB. pose proof (byte_swap_ok e 16 [b] [] swappable16) as H. cbn [concat app length map] in H. rewrite !app_nil_r in H.
    apply H. constructor; [auto|constructor]. }
  rewrite X by assumption. cbn [bind]. rewrite X by (rewrite ?rev_length; auto; now apply Forall_rev). eexists. reflexivity.
Qed.
Lemma dead_map e l st : Forall (fun p => bytes_ok (fst p) /\ int_size (length (fst p))) l -> s_fail st = true -> coherent st ->
  exists st', write_map e l st = Val st' /\ s_fail st' = true /\ s_data st' = s_data st.
Proof.
  intros HL HF HC. unfold write_map. set (st0 := resetChecksum st).
  assert (D0 : dead st st0 /\ s_crc st0 <> None) by (split; [repeat split; auto; discriminate|discriminate]).
  rewrite write_prim_ok by apply swappable4. cbn [bind]. set (st1 := emit _ st0).
  assert (D1 : dead st st1 /\ s_crc st1 <> None).
  { destruct D0 as (A & B). assert (X : dead st0 st1) by (apply dead_emit; apply A). split; [eapply dead_trans; eassumption|]. now apply X. }
  clearbody st1. clear D0 st0.
  assert (W : exists st2, write_all (fun p st => bind (write_desc e (fst p) st) (write_priv e (snd p))) l st1 = Val st2 /\ dead st1 st2).
  { destruct D1 as ((F1 & _ & C1 & _) & _). clear - HL F1 C1. revert st1 F1 C1. induction HL as [|[b q] l (HB & HI) _ IH]; intros st1 F1 C1; cbn [write_all].
    - exists st1. split; [reflexivity|]. now apply dead_refl.
    - cbn [fst snd] in *. rewrite write_desc_ok by assumption. cbn [bind].
      match goal with |- context [write_priv e q ?s] => destruct (write_priv_any e q s) as (bs & ->) end. cbn [bind].
      match goal with |- context [write_all _ l ?s] => assert (X : dead st1 s) end.
      { eapply dead_trans; [apply dead_emit; assumption|]. apply dead_emit; apply dead_emit; assumption. }
      destruct X as (X1 & X2 & X3 & X4). match goal with |- context [write_all _ l ?s] => destruct (IH s X1 X3) as (st2 & E & Y) end.
      exists st2. split; [exact E|]. eapply dead_trans; [|exact Y]. repeat split; auto. }
  destruct W as (st2 & -> & D2). cbn [bind]. destruct D1 as (D1 & K1). destruct D2 as (F2 & DD & C2 & K2). specialize (K2 K1).
  unfold getChecksum. destruct (s_crc st2) as [c|]; [|congruence]. cbn [of_option bind].
  rewrite write_prim_ok by apply swappable4. eexists. split; [reflexivity|].
  destruct (dead_emit (mem BigE 4 c) st2 F2 C2) as (X1 & X2 & _). split; [exact X1|]. destruct D1 as (_ & D1 & _). congruence.
Qed.
Lemma dead_seek p st : s_fail (readwriter_seek p st) = s_fail st /\ s_data (readwriter_seek p st) = s_data st.
Proof. split; reflexivity. Qed.
Lemma coherent_seek p st : coherent (readwriter_seek p st).
Proof. intros H. cbn in *. now rewrite H. Qed.

Section Bad.
  Variable klt : value -> value -> bool.
  Hypothesis klt_order : strict_order klt.
  Variables tk tv : ty.
  Notation Inv := (Inv klt tk tv).
  Notation FileOk := (FileOk klt tk tv).

  (** A failed record write. *)
  Lemma dead_record h v st : has_type klt tv v -> coherent st ->
    exists st', write_record tv h false v st = Val st' /\ s_fail st' = true /\ s_data st' = s_data st /\ coherent st'.
  Proof.
    intros HT HC. unfold write_record. cbv zeta.
    assert (C0 : coherent (set_fail (resetChecksum st))) by exact HC.
    rewrite (write_val_ok klt) by assumption. cbn [bind].
    destruct (dead_emit (enc tv v) (set_fail (resetChecksum st)) eq_refl C0) as (F1 & D1 & C1 & K1).
    specialize (K1 ltac:(discriminate)). unfold getChecksum. destruct (s_crc (emit (enc tv v) (set_fail (resetChecksum st)))) as [c|]; [|congruence].
    cbn [of_option bind]. rewrite write_prim_ok by apply swappable4. eexists. split; [reflexivity|].
    destruct (dead_emit (mem BigE 4 c) _ F1 C1) as (X1 & X2 & X3 & _). split; [exact X1|]. split; [rewrite X2, D1; reflexivity|exact X3].
  Qed.

  Lemma to_private_total e z : exists q, convertToPrivate DivGivesZero e z = Val q.
  Proof. unfold convertToPrivate, pos_div. rewrite max_uint64_zero. cbn [Z.eqb bind]. eexists. reflexivity. Qed.

  Lemma read_only_insert h d s k v : stored klt tk tv d s -> fits tk s -> host_ok h -> has_type klt tk k -> has_type klt tv v -> int_size (nbytes tk k) ->
    exists o1 o2, bind (disk_open h (Some d) (mkMode false false) new_disk) (disk_insert tk tv h k v) = Val (0%nat, o1) /\
      disk_exist tk h k o1 = Val true /\ disk_close h o1 = Val o2 /\ disk_file o2 = d.
  Proof.
    intros HS FT HO Hk Hv Hi. rewrite (nbytes_ok klt) in Hi by exact Hk. destruct (stored_ok klt klt_order tk tv _ _ HS) as (pos & B & FO & HP & HD & HL).
    rewrite open_read_only. destruct (open_ok klt klt_order tk tv h pos _ _ _ _ [] HO FO) as (o & EO & ED & I).
    replace (snd (disk_insertUserdata [] new_disk)) with new_disk in EO by reflexivity. rewrite EO. cbn [bind].
    specialize (I _ HL). rewrite stored_eq in I by assumption.
    assert (INS : exists o1, disk_insert tk tv h k v (read_only o) = Val (0%nat, o1) /\ d_state o1 = MODIFIED /\ d_out o1 = false /\ s_fail (d_stream o1) = true /\
              disk_file o1 = d /\ coherent (d_stream o1) /\ umap_find (enc tk k) (d_map o1) <> None /\
              Forall (fun p => bytes_ok (fst p) /\ int_size (length (fst p))) (d_map o1)).
    { unfold disk_insert, read_only. cbn [d_state d_map d_out d_stream d_user]. rewrite (inv_open klt tk tv _ _ _ _ _ _ _ I), (key_string_ok klt) by exact Hk. cbn [bind].
      assert (EN : Forall (fun p => bytes_ok (fst p) /\ int_size (length (fst p))) (d_map o)).
      { apply Forall_forall. intros q Hq. eapply Permutation_in in Hq; [|apply I]. apply in_map_iff in Hq. destruct Hq as ([b n] & <- & Hq).
        pose proof (typed_entries klt tk tv _ _ _ _ _ I FT) as TE. rewrite Forall_forall in TE. destruct (TE _ Hq) as (X & Y & _). auto. }
      pose proof (i_file _ _ _ _ _ _ _ _ I) as FA. destruct (umap_find (enc tk k) (d_map o)) as [q|] eqn:EF.
      - destruct (dead_record h v (seek_to (convertFromPrivate (h_e h) q) (d_stream o)) Hv) as (st & -> & F1 & D1 & C1).
        { unfold seek_to. destruct (_ <? 0)%Z; [exact (file_at_coherent _ _ _ FA)|apply coherent_seek]. }
        cbn [bind]. eexists. split; [reflexivity|]. unfold disk_file. cbn [d_state d_map d_out d_stream]. split; [reflexivity|]. split; [reflexivity|]. split; [exact F1|]. split; [|split; [exact C1|split; [congruence|exact EN]]].
        rewrite D1. unfold seek_to. transitivity (disk_file o); [|exact ED]. destruct (_ <? 0)%Z; reflexivity.
      - rewrite (proj1 HO). destruct (to_private_total (h_e h) (currentPosition (d_stream o))) as (q & ->). cbn [bind].
        destruct (dead_record h v (d_stream o) Hv (file_at_coherent _ _ _ FA)) as (st & -> & F1 & D1 & C1). cbn [bind].
        eexists. split; [reflexivity|]. unfold disk_file. cbn [d_state d_map d_out d_stream]. split; [reflexivity|]. split; [reflexivity|]. split; [exact F1|]. split.
        + rewrite D1. exact ED.
        + split; [exact C1|]. unfold umap_insert. rewrite EF. split; [rewrite umap_find_cons, string_eqb_refl; discriminate|].
          constructor; [|exact EN]. cbn [fst]. split; [apply (enc_bytes klt), Hk|exact Hi]. }
    destruct INS as (o1 & -> & S1 & OUT & FL & ED1 & CO & FN & EN). cbn [bind]. exists o1. unfold disk_exist, disk_close.
    rewrite S1, (key_string_ok klt) by exact Hk. cbn [bind]. destruct (umap_find (enc tk k) (d_map o1)) as [q|] eqn:EF; [|congruence].
    unfold closeWrite, closeWrite_map, closeWrite_link. rewrite (proj1 HO).
    destruct (to_private_total (h_e h) (currentPosition (readwriter_seekEnd 0 (d_stream o1)))) as (q1 & ->). cbn [bind]. rewrite OUT.
    destruct (dead_map (h_e h) (h_iter h (d_map o1)) (set_fail (readwriter_seekEnd 0 (d_stream o1)))) as (st & -> & F2 & D2).
    { eapply Permutation_Forall; [apply Permutation_sym, HO|exact EN]. }
    { reflexivity. }
    { apply coherent_seek. }
    cbn [bind]. match goal with |- context [write_priv (h_e h) q1 ?s] => destruct (write_priv_any (h_e h) q1 s) as (bs & ->) end. cbn [bind].
    eexists. split; [reflexivity|]. split; [reflexivity|]. split; [reflexivity|].
    - unfold disk_file. cbn [d_stream]. unfold readwriter_seekEnd at 1.
      match goal with |- s_data (readwriter_seek _ ?s) = _ => change (s_data s = d) end.
      match goal with |- s_data (emit ?b ?s) = _ => destruct (dead_emit b s) as (_ & X & _); [exact F2|apply coherent_seek|] end.
      rewrite X. cbn. rewrite D2. exact ED1.
  Qed.
  (** *** A new key after a get *)
  Lemma new_key_after_get h file user k1 k2 k3 v1 v2 v3 : host_ok h -> user_ok user -> k1 <> k2 -> k3 <> k1 -> k3 <> k2 ->
    has_type klt tk k3 -> has_type klt tv v3 ->
    legal_run klt tk tv [DInsert k1 v1; DInsert k2 v2; DGet k1] (created user) ->
    exists o0 o, disk_open h file create (snd (disk_insertUserdata user new_disk)) = Val o0 /\
      disk_run klt tk tv h [DInsert k1 v1; DInsert k2 v2; DGet k1; DInsert k3 v3; DGet k2] o0 =
        Val ([ORet 0; ORet 0; OGet 0 (Some v1); ORet 0; OGet 0 (Some v3)], o).
  Proof.
    intros HO HU N12 N31 N32 Hk3 Hv3 L. destruct (open_new_ok klt tk tv h file user HO HU) as (o0 & EO & _ & I0).
    exists o0. rewrite EO. specialize (I0 (fun _ => 0%nat)).
    assert (NE : forall a b, a <> b -> value_eqb a b = false).
    { intros a b N. destruct (value_eqb a b) eqn:E; [|reflexivity]. apply value_eqb_eq in E. congruence. }
    assert (EQ : forall a, value_eqb a a = true) by (intros; now apply value_eqb_eq).
    destruct L as (F0 & L0 & F1 & L1 & F2 & L2 & F3). cbn [legal] in *. destruct L0 as (Hk1 & Hv1 & Hi1 & P1). destruct L1 as (Hk2 & Hv2 & Hi2 & P2).
    cbn [created t_map lookup t_past] in *. rewrite (nbytes_ok klt) in Hi1, Hi2 by assumption.
    destruct (add_ok klt klt_order tk tv _ _ _ _ _ _ v1 HO I0 F0 Hk1 Hv1 Hi1 eq_refl eq_refl) as (o1 & E1 & _ & I1).
    cbn [store_step snd created t_map lookup t_user t_len] in F1, F2, P2. rewrite (nbytes_ok klt) in F1, F2, P2 by assumption. cbn [created t_map t_user t_len put] in *.
    assert (LK2 : lookup k2 [(k1, (v1, length (enc tv v1)))] = None) by (cbn [lookup]; rewrite NE by congruence; reflexivity).
    destruct (add_ok klt klt_order tk tv _ _ _ _ _ _ v2 HO I1 F1 Hk2 Hv2 Hi2 LK2 eq_refl) as (o2 & E2 & _ & I2).
    rewrite (NE k2 k1) in F2 by congruence. rewrite LK2 in F2. rewrite (nbytes_ok klt) in F2 by assumption. cbn [t_map t_user t_len] in *.
    assert (PM : put k2 (v2, length (enc tv v2)) [(k1, (v1, length (enc tv v1)))] = [(k1, (v1, length (enc tv v1))); (k2, (v2, length (enc tv v2)))]).
    { cbn [put]. now rewrite (NE k2 k1) by congruence. }
    rewrite PM in I2. set (m2 := [(k1, (v1, length (enc tv v1))); (k2, (v2, length (enc tv v2)))]) in *.
    assert (LK1 : lookup k1 m2 = Some (v1, length (enc tv v1))).
    { unfold m2. cbn [lookup]. now rewrite EQ. }
    destruct (get_ok klt klt_order tk tv _ _ _ _ _ k1 I2 F2 Hk1) as (o3 & p3 & E3 & ED3 & I3 & _ & P3). cbn [t_map] in *.
    specialize (P3 _ _ LK1). rewrite LK1 in E3.
    cbn [store_step t_map] in I3. rewrite LK1 in I3. cbn [snd t_map t_user t_len t_dirty] in I3.
    cbv beta in P3. rewrite (NE k2 k1) in P3 by congruence. rewrite EQ in P3.
    set (pos2 := fun k' => if value_eqb k2 k' then (link_pos user + 16 + length (rec (enc tv v1)))%nat else if value_eqb k1 k' then (link_pos user + 16)%nat else 0%nat) in *.
    assert (PE : p3 = pos2 k2) by (unfold pos2; rewrite EQ; exact P3).
    assert (LK3 : lookup k3 m2 = None).
    { unfold m2. cbn [lookup]. rewrite !NE by congruence. reflexivity. }
    (* the new key *)
    assert (E4 : exists o4, disk_insert tk tv h k3 v3 o3 = Val (0%nat, o4) /\ d_state o4 = MODIFIED /\
               umap_find (enc tk k2) (d_map o4) = Some (priv (h_e h) (pos2 k2)) /\
               file_at (d_stream o4) (overwrite (disk_file o3) p3 (rec (enc tv v3))) (p3 + length (rec (enc tv v3)))).
    { unfold disk_insert. rewrite (inv_open klt tk tv _ _ _ _ _ _ _ I3), (key_string_ok klt) by exact Hk3. cbn [bind].
      rewrite (inv_find klt klt_order tk tv _ _ _ _ _ _ I3 Hk3). cbn [t_map]. rewrite LK3. cbn [option_map].
      pose proof (i_file _ _ _ _ _ _ _ _ I3) as FA. rewrite (file_at_position _ _ _ FA), (proj1 HO).
      assert (SP : N.of_nat p3 < 2 ^ 63).
      { pose proof (i_pos _ _ _ _ _ _ _ _ I3). pose proof (i_len _ _ _ _ _ _ _ _ I3) as X. cbn [t_len] in X. destruct F2 as (F2 & _). cbn [t_len t_map] in F2. lia. }
      rewrite to_private by exact SP. cbn [bind]. rewrite (i_out _ _ _ _ _ _ _ _ I3).
      destruct (write_record_ok klt h tv v3 _ _ _ Hv3 FA) as (st & -> & FB). cbn [bind].
      eexists. split; [reflexivity|]. cbn [d_state d_map d_stream]. split; [reflexivity|]. split; [|exact FB].
      unfold umap_insert. rewrite (inv_find klt klt_order tk tv _ _ _ _ _ _ I3 Hk3). cbn [t_map]. rewrite LK3. cbn [option_map].
      rewrite umap_find_cons. rewrite string_eqb_neq.
      - rewrite (inv_find klt klt_order tk tv _ _ _ _ _ _ I3 Hk2). cbn [t_map]. unfold m2. cbn [lookup].
        rewrite (NE k2 k1) by congruence. rewrite EQ. reflexivity.
      - intros X. apply (enc_inj klt klt_order tk) in X; congruence. }
    destruct E4 as (o4 & E4 & S4 & U4 & F4).
    (* reading the second key *)
    assert (E5 : exists o5, disk_get klt tk tv h k2 o4 = Val (0%nat, Some v3, o5)).
    { unfold disk_get. rewrite S4, (key_string_ok klt) by exact Hk2. cbn [bind]. rewrite U4.
      assert (SP : N.of_nat (pos2 k2) < 2 ^ 63).
      { rewrite <- PE. pose proof (i_pos _ _ _ _ _ _ _ _ I3). pose proof (i_len _ _ _ _ _ _ _ _ I3) as X. cbn [t_len] in X. destruct F2 as (F2 & _). cbn [t_len t_map] in F2. lia. }
      rewrite from_private by exact SP.
      pose proof (file_at_reset _ _ _ (file_at_seek_to _ _ _ (pos2 k2) F4)) as F5.
      assert (HA : at_ (overwrite (disk_file o3) p3 (rec (enc tv v3))) (pos2 k2) (rec (enc tv v3))).
      { rewrite <- PE. apply at_written, (i_pos _ _ _ _ _ _ _ _ I3). }
      destruct (read_record_ok klt (h_e h) tv v3 _ _ _ klt_order Hv3 F5 eq_refl HA) as (st1 & st2 & -> & X2 & X3 & _). cbn [bind].
      rewrite X2. cbn [bind]. rewrite X3. cbn [bind]. rewrite N.eqb_refl. cbn [negb]. eexists. reflexivity. }
    destruct E5 as (o5 & E5). exists o5. split; [reflexivity|]. cbn [disk_run disk_step].
    rewrite E1. cbn [bind]. rewrite E2. cbn [bind]. rewrite E3. cbn [bind]. rewrite E4. cbn [bind]. rewrite E5. reflexivity.
  Qed.

  (** *** Keys of another file *)
  Lemma stale_keys h file1 file2 user ops k : host_ok h -> user_ok user -> legal_run klt tk tv ops (created user) ->
    In k (map fst (t_map (snd (store_run tk tv ops (created user))))) ->
    match bind (disk_open h file1 create (snd (disk_insertUserdata user new_disk))) (fun o =>
          bind (disk_run klt tk tv h ops o) (fun '(_, o) => bind (disk_close h o) (fun o =>
          disk_open h file2 create o))) with
    | Val o => disk_exist tk h k o = Val true
    | _ => False
    end.
  Proof.
    intros HO HU L HK. destruct (open_new_ok klt tk tv h file1 user HO HU) as (o & -> & _ & I). cbn [bind]. specialize (I (fun _ => 0%nat)).
    destruct (run_ok klt klt_order tk tv h ops HO _ _ _ _ I L) as (xs & o1 & pos1 & p1 & -> & _ & I1 & F1 & _). cbn [bind].
    assert (CL : exists o2, disk_close h o1 = Val o2 /\ d_state o2 = INIT /\ d_map o2 = d_map o1 /\ d_user o2 = d_user o1).
    { unfold disk_close. destruct (close_ok klt tk tv _ _ _ _ _ HO I1 F1) as (o2 & B & E & _). unfold disk_close in E.
      destruct (d_state o1); [eexists; split; [reflexivity|auto]|eexists; split; [reflexivity|auto]|].
      destruct (closeWrite h o1) as [st| |]; cbn [bind] in E |- *; try discriminate. eexists. split; [reflexivity|auto]. }
    destruct CL as (o2 & -> & S2 & M2 & U2). cbn [bind]. unfold disk_open. rewrite S2. unfold fstream_open, create, checkForNewFile. cbn [m_out m_trunc orb].
    rewrite (proj1 HO). destruct (write_header_ok (h_e h) (d_user o2)) as (st & -> & _).
    { rewrite U2, (i_user _ _ _ _ _ _ _ _ I1). apply I1. }
    cbn [bind]. assert (Hk : has_type klt tk k).
    { pose proof (typed_keys klt tk tv _ (i_typed _ _ _ _ _ _ _ _ I1)) as T. rewrite Forall_forall in T. auto. }
    unfold disk_exist. rewrite (key_string_ok klt) by exact Hk. cbn [bind d_map]. rewrite M2, (inv_find klt klt_order tk tv _ _ _ _ _ _ I1 Hk).
    destruct (lookup k (t_map (snd (store_run tk tv ops (created user))))) eqn:E; [reflexivity|]. now apply lookup_none in E.
  Qed.

  (** *** Several files *)
  Definition same_content (s s' : store) : Prop := t_map s' = t_map s /\ t_user s' = t_user s /\ t_dirty s' = false.
  Definition opened (h : host) (d : option disk) (s : store) : Prop :=
    exists o pos p s', d = Some (read_only o) /\ Inv h pos o s' p /\ fits tk s' /\ same_content s s'.

  Lemma multi_open_ok h files l : host_ok h -> Forall2 (fun f s => exists d, f = Some d /\ stored klt tk tv d s /\ fits tk s) files l ->
    exists dbs, multi_open h files = Val dbs /\ Forall2 (opened h) dbs l.
  Proof.
    intros HO. induction 1 as [|f s files l (d & -> & HS & FT) _ (dbs & E & IH)]; cbn [multi_open]; [exists []; auto|].
    rewrite open_read_only. destruct (stored_ok klt klt_order tk tv _ _ HS) as (pos & B & FO & HP & HD & HL).
    destruct (open_ok klt klt_order tk tv h pos _ _ _ _ [] HO FO) as (o & EO & _ & I).
    replace (snd (disk_insertUserdata [] new_disk)) with new_disk in EO by reflexivity. rewrite EO. cbn [bind]. rewrite E. cbn [bind].
    eexists. split; [reflexivity|]. constructor; [|exact IH]. specialize (I _ HL). rewrite stored_eq in I by assumption.
    exists o, pos, B, s. split; [reflexivity|]. split; [exact I|]. split; [exact FT|]. repeat split; assumption.
  Qed.

  Lemma multi_get_ok h k : has_type klt tk k -> forall dbs l, Forall2 (opened h) dbs l -> forall ret, ret <> 0%Z ->
    exists ret' dbs', multi_get_from klt tk tv h ret k dbs = Val (ret', first_found k l, dbs') /\
      ((ret' =? 0)%Z = match first_found k l with Some _ => true | None => false end) /\ Forall2 (opened h) dbs' l.
  Proof.
    intros Hk. induction 1 as [|d s dbs l (o & pos & p & s' & -> & I & FT & SC & SU & SD) HF IH]; intros ret HR; cbn [multi_get_from first_found].
    - do 2 eexists. split; [reflexivity|]. split; [now apply Z.eqb_neq|constructor].
    - cbn [deref of_option bind]. rewrite get_read_only.
      destruct (get_ok klt klt_order tk tv _ _ _ _ _ k I FT Hk) as (o' & p' & -> & _ & I' & _).
      rewrite <- SC. cbn [store_step] in I'. destruct (lookup k (t_map s')) as [[v r]|] eqn:E; cbn [bind Nat.eqb snd] in *.
      + do 2 eexists. split; [reflexivity|]. split; [reflexivity|]. constructor; [|exact HF]. do 4 eexists. split; [reflexivity|]. split; [exact I'|].
        split; [exact FT|]. repeat split; assumption.
      + destruct (IH (Z.of_nat 1)) as (ret' & dbs' & -> & ER & HF'); [discriminate|]. cbn [bind].
        do 2 eexists. split; [reflexivity|]. split; [exact ER|]. constructor; [|exact HF']. do 4 eexists. split; [reflexivity|]. split; [exact I'|].
        split; [exact FT|]. repeat split; assumption.
  Qed.
  Lemma multi_exist_ok h k : has_type klt tk k -> forall dbs l, Forall2 (opened h) dbs l ->
    multi_exist tk h k dbs = Val (match first_found k l with Some _ => true | None => false end).
  Proof.
    intros Hk. induction 1 as [|d s dbs l (o & pos & p & s' & -> & I & FT & SC & SU & SD) HF IH]; cbn [multi_exist first_found]; [reflexivity|].
    cbn [deref of_option bind]. unfold disk_exist. rewrite (key_string_ok klt) by exact Hk. cbn [bind read_only d_map].
    rewrite (inv_find klt klt_order tk tv _ _ _ _ _ _ I Hk), <- SC. destruct (lookup k (t_map s')) as [[v r]|]; cbn [option_map]; [reflexivity|exact IH].
  Qed.

  Lemma fold_keys ss : forall m : umap unit, NoDup (map fst m) ->
    let u := fold_left (fun m s => umap_insert s tt m) ss m in
    NoDup (map fst u) /\ forall b, In b (map fst u) <-> In b ss \/ In b (map fst m).
  Proof.
    induction ss as [|s ss IH]; intros m ND; cbn [fold_left]; [split; [exact ND|cbn; tauto]|].
    assert (X : NoDup (map fst (umap_insert s tt m)) /\ forall b, In b (map fst (umap_insert s tt m)) <-> b = s \/ In b (map fst m)).
    { unfold umap_insert. destruct (umap_find s m) eqn:E.
      - split; [exact ND|]. intros b. split; [auto|]. intros [->|H]; [|exact H]. apply umap_find_In in E. apply in_map_iff. now exists (s, u).
      - apply umap_find_none in E. cbn [map fst In]. split; [now constructor|]. intros b. split; intros [?|?]; auto. }
    destruct X as (X1 & X2). destruct (IH _ X1) as (Y1 & Y2). cbv zeta in *. split; [exact Y1|]. intros b. rewrite Y2, X2. cbn [In]. intuition congruence.
  Qed.
  Lemma first_found_In k l : first_found k l <> None <-> exists s, In s l /\ In k (map fst (t_map s)).
  Proof.
    induction l as [|s l IH]; cbn [first_found In].
    - split; [congruence|intros (s & [] & _)].
    - destruct (lookup k (t_map s)) as [[v r]|] eqn:E.
      + split; [|discriminate]. intros _. exists s. split; [now left|]. apply lookup_In in E. apply in_map_iff. now exists (k, (v, r)).
      + rewrite IH. apply lookup_none in E. split.
        * intros (s' & H1 & H2). exists s'. auto.
        * intros (s' & [->|H1] & H2); [contradiction|]. eauto.
  Qed.
  Lemma multi_keys_ok h iter1 dbs l : host_ok h -> (forall m, Permutation (iter1 m) m) -> Forall2 (opened h) dbs l ->
    exists ks, multi_keys klt tk h iter1 dbs = Val ks /\ NoDup ks /\ forall k, In k ks <-> first_found k l <> None.
  Proof.
    intros HO HI HF. unfold multi_keys.
    assert (K : exists kks, mapM (fun d => bind (deref d) (disk_keys klt tk h)) dbs = Val kks /\
              Forall (has_type klt tk) (concat kks) /\ forall k, In k (concat kks) <-> exists s, In s l /\ In k (map fst (t_map s))).
    { clear HI. induction HF as [|d s dbs l (o & pos & p & s' & -> & I & FT & SC & SU & SD) HF (kks & E & T & IH)]; cbn [mapM].
      - exists []. split; [reflexivity|]. split; [constructor|]. intros k. split; [intros []|intros (s & [] & _)].
      - cbn [deref of_option bind]. change (disk_keys klt tk h (read_only o)) with (disk_keys klt tk h o).
        destruct (keys_ok klt klt_order tk tv _ _ _ _ _ HO I) as (ks & -> & PK). cbn [bind]. rewrite E. cbn [bind].
        exists (ks :: kks). split; [reflexivity|]. cbn [concat]. split.
        + apply Forall_app. split; [|exact T]. eapply Permutation_Forall; [apply Permutation_sym, PK|]. apply (typed_keys klt tk tv), I.
        + intros k. rewrite in_app_iff, IH. split.
          * intros [H|(s1 & H1 & H2)]; [|exists s1; cbn; auto]. exists s. split; [now left|]. rewrite <- SC. eapply Permutation_in; eassumption.
          * intros (s1 & [->|H1] & H2); [|eauto]. left. rewrite <- SC in H2. eapply Permutation_in; [apply Permutation_sym, PK|exact H2]. }
    destruct K as (kks & -> & T & KI). cbn [bind].
    assert (S : mapM (key_string (h_e h) tk) (concat kks) = Val (map (enc tk) (concat kks))).
    { clear KI. induction T as [|k ks Hk _ IH]; cbn [mapM map]; [reflexivity|]. rewrite (key_string_ok klt) by exact Hk. cbn [bind]. now rewrite IH. }
    rewrite S. cbn [bind]. destruct (fold_keys (map (enc tk) (concat kks)) [] (NoDup_nil _)) as (U1 & U2). cbv zeta in *.
    set (u := fold_left _ _ _) in *. specialize (HI u).
    assert (PN : NoDup (map fst (iter1 u))) by (eapply Permutation_NoDup; [apply Permutation_map, Permutation_sym, HI|exact U1]).
    assert (PI : forall b, In b (map fst (iter1 u)) <-> In b (map (enc tk) (concat kks))).
    { intros b. specialize (U2 b). cbn [map In] in U2. transitivity (In b (map fst u)); [|tauto].
      split; intros H; eapply Permutation_in; try exact H; apply Permutation_map; [exact HI|apply Permutation_sym, HI]. }
    clearbody u. clear U1 U2 HI. revert PN PI. generalize (iter1 u) as w. intros w PN PI.
    assert (X : exists ks, map (enc tk) ks = map fst w /\ Forall (has_type klt tk) ks).
    { assert (Y : forall b, In b (map fst w) -> exists k, enc tk k = b /\ has_type klt tk k).
      { intros b Hb. apply PI in Hb. apply in_map_iff in Hb. destruct Hb as (k & <- & Hk). exists k. split; [reflexivity|]. rewrite Forall_forall in T. auto. }
      clear - Y. induction (map fst w) as [|b bs IH]; [exists []; auto|]. destruct (Y b) as (k & E & Hk); [now left|].
      destruct IH as (ks & E' & HT); [intros; apply Y; now right|]. exists (k :: ks). cbn [map]. split; [congruence|auto]. }
    destruct X as (ks & EK & TK). exists ks. split.
    - clear - klt_order EK TK. revert ks EK TK. induction w as [|[b x] w IH]; intros [|k ks] EK TK; cbn [map fst] in EK; try discriminate; [reflexivity|].
      inversion EK; subst. inversion TK; subst. cbn [mapM fst]. rewrite (key_of_string_ok klt klt_order) by assumption. cbn [bind]. now rewrite (IH ks).
    - split; [apply NoDup_map_inv with (f := enc tk); now rewrite EK|]. intros k. rewrite first_found_In, <- KI. rewrite Forall_forall in T, TK. split; intros H.
      + pose proof (in_map (enc tk) _ _ H) as X. rewrite EK in X. apply PI in X. apply in_map_iff in X. destruct X as (k' & E' & H').
        replace k with k'; [exact H'|]. apply (enc_inj klt klt_order tk); auto.
      + pose proof (in_map (enc tk) _ _ H) as X. apply PI in X. rewrite <- EK in X. apply in_map_iff in X. destruct X as (k' & E' & H').
        replace k with k'; [exact H'|]. apply (enc_inj klt klt_order tk); auto.
  Qed.

  Lemma multi_run_ok h iter1 ops l : host_ok h -> (forall m, Permutation (iter1 m) m) -> Forall (multi_typed klt tk) ops ->
    forall dbs, Forall2 (opened h) dbs l ->
    exists xs, multi_run klt tk tv h iter1 ops dbs = Val xs /\ Forall2 (fun op x => multi_expected op l x) ops xs.
  Proof.
    intros HO HI. induction 1 as [|op ops HT _ IH]; intros dbs HF; cbn [multi_run]; [exists []; auto|].
    assert (S : exists x dbs', multi_step klt tk tv h iter1 op dbs = Val (x, dbs') /\ multi_expected op l x /\ Forall2 (opened h) dbs' l).
    { destruct op as [k|k| |]; cbn [multi_step multi_expected multi_typed] in *.
      - destruct (multi_get_ok h k HT dbs l HF (-1)%Z) as (ret & dbs' & E & ER & HF'); [discriminate|]. unfold multi_get. rewrite E. cbn [bind].
        rewrite ER. destruct (first_found k l); do 2 eexists; (split; [reflexivity|auto]).
      - rewrite (multi_exist_ok h k HT dbs l HF). cbn [bind]. do 2 eexists. split; [reflexivity|auto].
      - destruct (multi_keys_ok h iter1 dbs l HO HI HF) as (ks & -> & ND & KI). cbn [bind]. do 2 eexists. split; [reflexivity|]. split; [|exact HF]. eauto.
      - destruct HF as [|d s dbs l (o & pos & p & s' & -> & I & FT & SC & SU & SD) HF]; cbn [multi_getUserdata bind].
        + do 2 eexists. split; [reflexivity|]. split; [reflexivity|constructor].
        + cbn [deref of_option bind]. unfold disk_getUserdata. cbn [read_only d_state d_user]. rewrite (inv_open klt tk tv _ _ _ _ _ _ _ I). cbn [bind].
          do 2 eexists. split; [reflexivity|]. split; [now rewrite (i_user _ _ _ _ _ _ _ _ I), SU|]. constructor; [|exact HF].
          exists o, pos, p, s'. split; [reflexivity|]. split; [exact I|]. split; [exact FT|]. repeat split; assumption. }
    destruct S as (x & dbs' & -> & EX & HF'). cbn [bind]. destruct (IH dbs' HF') as (xs & -> & EXS). cbn [bind].
    eexists. split; [reflexivity|]. now constructor.
  Qed.
  (** close leaves dangling pointers behind *)
  Lemma multi_close_ok h dbs l : Forall2 (opened h) dbs l -> multi_close h dbs = Val (map (fun _ => None) dbs).
  Proof.
    induction 1 as [|d s dbs l (o & pos & p & s' & -> & I & FT & SC & SU & SD) HF IH]; cbn [multi_close map]; [reflexivity|].
    cbn [deref of_option bind]. unfold disk_close. cbn [read_only d_state]. rewrite (i_state _ _ _ _ _ _ _ _ I), SD. cbn [bind]. rewrite IH. reflexivity.
  Qed.
End Bad.

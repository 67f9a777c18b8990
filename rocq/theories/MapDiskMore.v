(** Proofs about the on-disk map object: crash points, wrong histories, several files. *)
From Coq Require Import List Arith NArith ZArith Bool Permutation Lia.
From Coq Require Import ZifyBool ZifyNat ZifyN.
From Verif Require Import Base CrcModel IoModel CrcSpec IoSpec CrcProofs SwapProofs IoProofs MapObjModel MapObjSpec MapObjProofs MapDiskProofs MapDiskOk MapDiskRun.
Import ListNotations.
Local Open Scope N_scope.
Local Arguments crc32 : simpl never.

(** ** Headers that a crash leaves *)

(** A file whose link points to itself is rejected. *)
Lemma self_link_aborts h user f m0 u0 : user_ok user -> at_ f 0 (hdr user (link_pos user)) -> m_trunc m0 = false ->
  disk_open h (Some f) m0 (snd (disk_insertUserdata u0 new_disk)) = Abort.
Proof.
  intros HU HA HT. unfold disk_open. cbn [new_disk disk_insertUserdata d_state snd d_user d_map d_out d_stream].
  unfold fstream_open, checkForNewFile. rewrite HT. cbn [orb].
  assert (X : (match m_out m0, false with true, true => Some [] | false, true => None | _, false => Some f end) = Some f) by now destruct (m_out m0).
  rewrite X. clear X. pose proof (user_small user HU) as HS.
  destruct (read_header_ok (h_e h) user (link_pos user) f _ HU HS HA (file_at_open f)) as (st & -> & F1). cbn [bind].
  unfold read_map. rewrite from_private by exact HS. apply (file_at_seek_to _ _ _ (link_pos user)) in F1. apply file_at_reset in F1.
  set (st0 := resetChecksum _) in *. assert (C0 : s_crc st0 = Some 0) by reflexivity. clearbody st0.
  unfold hdr in HA. apply at_app in HA. destruct HA as (_ & HA). rewrite hdr0_length in HA. cbn [Nat.add] in HA.
  assert (E16 : mem BigE 16 (N.of_nat (link_pos user)) = mem BigE 4 0 ++ mem BigE 4 0 ++ mem BigE 8 (N.of_nat (link_pos user))).
  { change (mem BigE 16 (N.of_nat (link_pos user))) with (rev (le_bytes (8 + 8) (N.of_nat (link_pos user)))).
    rewrite le_bytes_add, N.div_small by (change (256 ^ N.of_nat 8) with (2 ^ 64); lia). rewrite le_bytes_0, rev_app_distr. reflexivity. }
  rewrite E16 in HA. destruct (at_ready _ _ _ st0 HA) as (rest & HR); [|exact F1|].
  { intros Y. apply (f_equal (@length N)) in Y. rewrite !app_length, !mem_length in Y. cbn in Y. lia. }
  rewrite <- !app_assoc in HR. erewrite (read_prim_ok (h_e h) 4 0); [|apply swappable4|reflexivity|exact HR]. cbn [bind].
  change (N.to_nat 0) with 0%nat. cbn [read_all bind]. rewrite (crc_consume _ _ 0) by exact C0. cbn [bind].
  apply consume_ready in HR. erewrite (read_prim_ok (h_e h) 4 0); [|apply swappable4|reflexivity|exact HR]. cbn [bind].
  replace (crc32 0 (Some (mem BigE 4 0))) with 558161692 by (vm_compute; reflexivity). reflexivity.
Qed.

(** A file shorter than its header makes open read uninitialised memory. *)
Lemma short_read e size n st : (length (s_data st) < s_get st + size * n)%nat -> read_array e size n st = Undef.
Proof.
  intros H. unfold read_array, get_bytes. destruct (s_fail st); [reflexivity|]. unfold peek.
  destruct (Nat.leb_spec (s_get st + size * n) (length (s_data st))) as [X|X]; [lia|reflexivity].
Qed.
Lemma ready_length st bs : ready st bs -> length (s_data st) = (s_get st + length bs)%nat.
Proof. intros (_ & _ & pre & -> & <-). apply app_length. Qed.
Lemma short_ready e size n st bs : ready st bs -> (length bs < size * n)%nat -> read_array e size n st = Undef.
Proof. intros R H. apply short_read. rewrite (ready_length _ _ R). lia. Qed.

Lemma firstn_cut {A} (a b : list A) n : (length a <= n)%nat -> firstn n (a ++ b) = a ++ firstn (n - length a) b.
Proof. intros H. rewrite firstn_app, firstn_all2 by exact H. reflexivity. Qed.

Lemma short_desc e s n st : bytes_ok s -> int_size (length s) -> (n < 4 + length s)%nat -> ready st (firstn n (int_bytes (length s) ++ s)) ->
  read_desc e st = Undef.
Proof.
  intros HB HI HN HR. unfold read_desc, read_size, read_prim. destruct (le_lt_dec 4 n) as [L|L].
  - rewrite firstn_cut in HR by (rewrite int_bytes_length; exact L). rewrite int_bytes_length in HR.
    unfold int_bytes in HR. pose proof HI as HI'. unfold int_size in HI'.
    assert (E : N.of_nat (length s) mod 2 ^ 32 = N.of_nat (length s)) by (apply N.mod_small; change (2 ^ 31) with 2147483648 in HI'; change (2 ^ 32) with 4294967296; lia).
    pose proof (read_prim_ok e 4 (N.of_nat (length s)) (firstn (n - 4) s) st swappable4) as RP. unfold read_prim in RP.
    rewrite RP; [|change (8 * N.of_nat 4) with 32; change (2 ^ 31) with 2147483648 in HI'; change (2 ^ 32) with 4294967296; lia|]; cycle 1.
    { first [exact HR|rewrite E in HR; exact HR]. }
    cbn [bind]. replace (N.of_nat (length s) <? 2 ^ 31) with true by (symmetry; apply N.ltb_lt; exact HI'). cbn [bind]. rewrite Nat2N.id.
    apply consume_ready in HR. eapply short_ready; [exact HR|]. rewrite firstn_length. lia.
  - rewrite (short_ready e 4 1 _ _ HR); [reflexivity|]. rewrite firstn_length. lia.
Qed.

Lemma truncated_header e user link n : user_ok user -> N.of_nat link < 2 ^ 63 -> (n < length (hdr user link))%nat ->
  read_header e (file_readwriter (firstn n (hdr user link))) = Undef.
Proof.
  intros HU HL HN. rewrite hdr_length in HN. unfold link_pos in HN. unfold read_header.
  set (d := firstn n (hdr user link)). assert (HR : ready (readwriter_seek 0 (file_readwriter d)) d).
  { repeat split. exists []. split; reflexivity. }
  set (st := readwriter_seek 0 (file_readwriter d)) in *. clearbody st. subst d. destruct magic_ok as [M1 M2]. pose proof HU as [U1 U2].
  unfold hdr, hdr0 in HR. rewrite <- !app_assoc in HR. rewrite app_assoc in HR.
  change (length file_magic) with 29%nat in HN.
  destruct (le_lt_dec 33 n) as [L1|L1].
  2:{ rewrite firstn_app in HR. replace (n - length (int_bytes (length file_magic) ++ file_magic))%nat with 0%nat in HR by (change (length (int_bytes (length file_magic) ++ file_magic)) with 33%nat; lia).
      cbn [firstn] in HR. rewrite app_nil_r in HR. rewrite (short_desc e file_magic n st M1 M2); [reflexivity|change (length file_magic) with 29%nat; lia|exact HR]. }
  rewrite firstn_cut in HR by exact L1. erewrite read_desc_ok; [|exact M1|exact M2|exact HR]. cbn [bind]. rewrite string_eqb_refl. cbn [negb].
  apply consume_ready in HR. change (length (int_bytes (length file_magic) ++ file_magic)) with 33%nat in HR.
  destruct (le_lt_dec 4 (n - 33)) as [L2|L2].
  2:{ unfold read_prim. rewrite (short_ready e 4 1 _ _ HR); [reflexivity|]. rewrite firstn_length. lia. }
  rewrite firstn_cut in HR by (rewrite mem_length; exact L2). rewrite (read_prim_ok e 4 1 _ _ swappable4 eq_refl HR). cbn [bind].
  apply consume_ready in HR. rewrite mem_length in HR. rewrite app_assoc in HR.
  destruct (le_lt_dec (4 + length user) (n - 33 - 4)) as [L3|L3].
  2:{ rewrite firstn_app in HR. replace (n - 33 - 4 - length (int_bytes (length user) ++ user))%nat with 0%nat in HR by (rewrite app_length, int_bytes_length; lia).
      cbn [firstn] in HR. rewrite app_nil_r in HR. rewrite (short_desc e user _ _ U1 U2 L3 HR). reflexivity. }
  rewrite firstn_cut in HR by (rewrite app_length, int_bytes_length; exact L3). erewrite read_desc_ok; [|exact U1|exact U2|exact HR]. cbn [bind].
  apply consume_ready in HR. unfold read_priv. rewrite (short_ready e 16 1 _ _ HR); [reflexivity|]. rewrite firstn_length, app_length, int_bytes_length. lia.
Qed.

Section DiskMore.
  Variable klt : value -> value -> bool.
  Hypothesis klt_order : strict_order klt.
  Variables tk tv : ty.
  Notation Inv := (Inv klt tk tv).
  Notation FileOk := (FileOk klt tk tv).

  Lemma stored_ok d s : stored klt tk tv d s ->
    exists pos B, FileOk pos (t_user s) d (t_map s) B /\ t_past s = true /\ t_dirty s = false /\ N.of_nat (length d) <= t_len s.
  Proof.
    induction 1 as [h file user ops xs d HO HU L E|h d s ops xs d' HS (pos & B & FO & HP & HD & HL) HO L E].
    - destruct (session_create_ok klt klt_order tk tv h file user ops HO HU L) as (xs' & d1 & pos & B & E1 & _ & FO & LN).
      rewrite E in E1. injection E1 as _ <-. exists pos, B. auto.
    - destruct (session_ok klt klt_order tk tv h ops pos d s B HO FO HP HD HL L) as (xs' & d1 & pos' & B' & E1 & _ & FO' & LN).
      rewrite E in E1. injection E1 as _ <-. exists pos', B'. auto.
  Qed.
  Lemma stored_eq s : t_past s = true -> t_dirty s = false -> mkStore (t_map s) true false (t_user s) (t_len s) = s.
  Proof. intros H1 H2. destruct s. cbn in *. congruence. Qed.

  (** *** Crashes after the last flush *)

  Lemma crash_reopen h pos o s p B ops op f h' ops' : host_ok h -> host_ok h' -> Inv h pos o s p ->
    t_dirty s = false -> clean tk pos (t_user s) (disk_file o) (t_map s) B -> (t_past s = true -> (B <= p)%nat) ->
    legal_run klt tk tv (ops ++ [op]) s -> Forall (spares (map fst (t_map s))) ops -> (forall k v, op = DInsert k v -> ~ In k (map fst (t_map s))) ->
    forall xs o1, disk_run klt tk tv h ops o = Val (xs, o1) -> crash_file tk tv h o1 op f ->
    legal_run klt tk tv ops' (flushed_only s f) ->
    exists ys d', session klt tk tv h' (Some f) read_write [] ops' = Val (ys, d') /\
      Forall2 same_out ys (fst (store_run tk tv ops' (flushed_only s f))).
  Proof.
    intros HO HO' I HD CL BP L HS HS' xs o1 E CF L'.
    assert (BL : (B <= length (disk_file o))%nat).
    { destruct CL as (link & l & _ & _ & HA & _ & -> & _). apply (at_end_of _ _ _ HA), rec_nonempty. }
    assert (FR : frozen B (disk_file o) (map fst (t_map s)) pos o s p).
    { split; [intros i _; reflexivity|]. split; [exact BL|]. split; [exact BP|]. intros k v r H N. exfalso. apply N, in_map_iff. now exists (k, (v, r)). }
    assert (L1 : legal_run klt tk tv ops s /\ legal_run klt tk tv [op] (snd (store_run tk tv ops s))).
    { clear - L. revert s L. induction ops as [|a ops IH]; intros s L; cbn [app legal_run store_run] in *.
      - split; [apply L|exact L].
      - destruct L as (A & B & C). destruct (store_step tk tv a s) as [x s1]. cbn [fst snd] in *. destruct (IH _ C) as (D & D').
        destruct (store_run tk tv ops s1). cbn [snd] in *. auto. }
    destruct L1 as (L1 & L2). destruct (run_ok klt klt_order tk tv h ops HO _ _ _ _ I L1) as (xs' & o1' & pos1 & p1 & E1 & _ & I1 & _ & FR1).
    rewrite E in E1. injection E1 as _ <-. specialize (FR1 _ _ _ FR HS).
    destruct (crash_ok klt klt_order tk tv h pos1 o1 _ p1 op f B _ _ HO I1 L2 CF FR1 HS') as (SU & LB & SF).
    pose proof (legal_fits _ _ _ _ _ L) as FT. assert (FO : FileOk pos (t_user s) (disk_file o) (t_map s) B).
    { destruct I. destruct FT as (F1 & F2). unfold MapDiskOk.FileOk. repeat (split; [assumption|]). lia. }
    pose proof (fileok_prefix klt tk tv _ _ _ _ _ _ FO SU LB SF) as FO'.
    destruct (session_ok klt klt_order tk tv h' ops' pos f (flushed_only s f) B HO' FO' eq_refl eq_refl (N.le_refl _) L') as (ys & d' & _ & _ & E' & SO & _).
    eauto.
  Qed.

  Lemma crash_after_flush h file user ops1 ops2 op f h' ops' : host_ok h -> host_ok h' -> user_ok user ->
    let s := snd (store_run tk tv (ops1 ++ [DFlush]) (created user)) in
    legal_run klt tk tv (ops1 ++ DFlush :: ops2 ++ [op]) (created user) ->
    Forall (spares (map fst (t_map s))) ops2 -> (forall k v, op = DInsert k v -> ~ In k (map fst (t_map s))) ->
    forall o0 xs o1, disk_open h file create (snd (disk_insertUserdata user new_disk)) = Val o0 ->
      disk_run klt tk tv h (ops1 ++ DFlush :: ops2) o0 = Val (xs, o1) -> crash_file tk tv h o1 op f ->
      legal_run klt tk tv ops' (flushed_only s f) ->
    exists ys d', session klt tk tv h' (Some f) read_write [] ops' = Val (ys, d') /\
      Forall2 same_out ys (fst (store_run tk tv ops' (flushed_only s f))).
  Proof.
    intros HO HO' HU s L HS HS' o0 xs o1 EO ER CF L'.
    destruct (open_new_ok klt tk tv h file user HO HU) as (o & E & _ & I). rewrite EO in E. injection E as <-. specialize (I (fun _ => 0%nat)).
    assert (LS : forall a b z, legal_run klt tk tv (a ++ b) z -> legal_run klt tk tv a z /\ legal_run klt tk tv b (snd (store_run tk tv a z))).
    { clear. induction a as [|q a IH]; intros b z L; cbn [app legal_run store_run] in *.
      - split; [eapply legal_fits, L|exact L].
      - destruct L as (A & B & C). destruct (store_step tk tv q z) as [x s1]. cbn [fst snd] in *. destruct (IH _ _ C) as (D & D').
        destruct (store_run tk tv a s1). cbn [snd] in *. auto. }
    replace (ops1 ++ DFlush :: ops2 ++ [op]) with ((ops1 ++ [DFlush]) ++ ops2 ++ [op]) in L by now rewrite <- app_assoc.
    replace (ops1 ++ DFlush :: ops2) with ((ops1 ++ [DFlush]) ++ ops2) in ER by now rewrite <- app_assoc.
    destruct (LS _ _ _ L) as (L1 & L2). fold s in L2.
    destruct (run_ok klt klt_order tk tv h _ HO _ _ _ _ I L1) as (xs1 & om & pos & p & E1 & _ & I1 & _ & _). fold s in I1.
    assert (RS : forall a b z, disk_run klt tk tv h (a ++ b) z = bind (disk_run klt tk tv h a z) (fun '(us, z') => bind (disk_run klt tk tv h b z') (fun '(vs, z'') => Val (us ++ vs, z'')))).
    { clear. induction a as [|q a IH]; intros b z; cbn [app disk_run bind].
      - destruct (disk_run klt tk tv h b z) as [[]| |]; reflexivity.
      - destruct (disk_step klt tk tv h q z) as [[x z1]| |]; cbn [bind]; try reflexivity. rewrite IH.
        destruct (disk_run klt tk tv h a z1) as [[us z2]| |]; cbn [bind]; try reflexivity.
        destruct (disk_run klt tk tv h b z2) as [[vs z3]| |]; reflexivity. }
    rewrite RS, E1 in ER. cbn [bind] in ER. destruct (disk_run klt tk tv h ops2 om) as [[xs2 o2]| |] eqn:E2; cbn [bind] in ER; try discriminate.
    injection ER as _ ->.
    assert (SD : t_dirty s = false).
    { subst s. clear. generalize (created user) as z. induction ops1 as [|q ops1 IH]; intros z; cbn [app store_run].
      - cbn [store_step]. destruct (t_dirty z) eqn:E; cbn [snd]; [reflexivity|exact E].
      - destruct (store_step tk tv q z) as [x z1]. specialize (IH z1). destruct (store_run tk tv (ops1 ++ [DFlush]) z1). exact IH. }
    destruct (i_clean _ _ _ _ _ _ _ _ I1 SD) as (B & CL & BP).
    exact (crash_reopen h pos om s p B ops2 op f h' ops' HO HO' I1 SD CL BP L2 HS HS' xs2 o1 E2 CF L').
  Qed.

  Lemma crash_after_close d s h h' ops op f ops' : stored klt tk tv d s -> host_ok h -> host_ok h' ->
    legal_run klt tk tv (ops ++ [op]) s ->
    Forall (spares (map fst (t_map s))) ops -> (forall k v, op = DInsert k v -> ~ In k (map fst (t_map s))) ->
    forall o0 xs o1, disk_open h (Some d) read_write new_disk = Val o0 ->
      disk_run klt tk tv h ops o0 = Val (xs, o1) -> crash_file tk tv h o1 op f ->
      legal_run klt tk tv ops' (flushed_only s f) ->
    exists ys d', session klt tk tv h' (Some f) read_write [] ops' = Val (ys, d') /\
      Forall2 same_out ys (fst (store_run tk tv ops' (flushed_only s f))).
  Proof.
    intros HST HO HO' L HS HS' o0 xs o1 EO ER CF L'. destruct (stored_ok _ _ HST) as (pos & B & FO & HP & HD & HL).
    destruct (open_ok klt klt_order tk tv h pos _ _ _ _ [] HO FO) as (o & E & ED & I). 
    replace (snd (disk_insertUserdata [] new_disk)) with new_disk in E by reflexivity. rewrite EO in E. injection E as <-.
    specialize (I _ HL). rewrite stored_eq in I by assumption.
    assert (CL : clean tk pos (t_user s) (disk_file o0) (t_map s) B) by (rewrite ED; apply FO).
    exact (crash_reopen h pos o0 s B B ops op f h' ops' HO HO' I HD CL (fun _ => le_n B) L HS HS' xs o1 ER CF L').
  Qed.

  Lemma crash_before_flush h file user ops op f : host_ok h -> user_ok user -> legal_run klt tk tv (ops ++ [op]) (created user) ->
    ~ In DFlush ops ->
    forall o0 xs o1, disk_open h file create (snd (disk_insertUserdata user new_disk)) = Val o0 ->
      disk_run klt tk tv h ops o0 = Val (xs, o1) -> crash_file tk tv h o1 op f ->
      at_ f 0 (hdr user (link_pos user)).
  Proof.
    intros HO HU L HF o0 xs o1 EO ER CF. destruct (open_new_ok klt tk tv h file user HO HU) as (o & E & ED & I).
    rewrite EO in E. injection E as <-. specialize (I (fun _ => 0%nat)).
    assert (FR : frozen (link_pos user + 16) (disk_file o0) [] (fun _ => 0%nat) o0 (created user) (link_pos user + 16)).
    { split; [intros i _; reflexivity|]. rewrite ED, hdr_length. split; [lia|]. split; [lia|]. intros k v r []. }
    assert (L1 : legal_run klt tk tv ops (created user) /\ legal_run klt tk tv [op] (snd (store_run tk tv ops (created user)))).
    { clear - L. revert L. generalize (created user) as s. induction ops as [|a ops IH]; intros s L; cbn [app legal_run store_run] in *.
      - split; [apply L|exact L].
      - destruct L as (A & B & C). destruct (store_step tk tv a s) as [x s1]. cbn [fst snd] in *. destruct (IH _ C) as (D & D').
        destruct (store_run tk tv ops s1). cbn [snd] in *. auto. }
    destruct L1 as (L1 & L2). destruct (run_ok klt klt_order tk tv h ops HO _ _ _ _ I L1) as (xs' & o1' & pos1 & p1 & E1 & _ & I1 & _ & FR1).
    rewrite ER in E1. injection E1 as _ <-.
    assert (HS : Forall (spares []) ops).
    { apply Forall_forall. intros q Hq. destruct q; cbn [spares]; auto. }
    specialize (FR1 _ _ _ FR HS).
    destruct (crash_ok klt klt_order tk tv h pos1 o1 _ p1 op f _ _ [] HO I1 L2 CF FR1 (fun _ _ _ X => X)) as (SU & LB & SF).
    eapply at_same_upto; [exact SU| |rewrite hdr_length; lia]. rewrite ED. intros i Hi. reflexivity.
  Qed.
End DiskMore.

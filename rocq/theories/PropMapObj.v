(** C39-C42, C64-C67: map objects in memory and on disk. *)
From Coq Require Import List Arith NArith ZArith Bool Permutation Lia.
From Coq Require Import ZifyBool ZifyNat ZifyN.
From Verif Require Import Base CrcModel IoModel CrcSpec IoSpec IoProofs PropIo MapObjModel MapObjSpec MapObjProofs MapDiskProofs
  MapDiskOk MapDiskRun MapDiskMore MapDiskBad.
Import ListNotations.
Local Open Scope N_scope.
Local Arguments crc32 : simpl never.

(** C39.  Any program on a MapObjectMemory returns what it returns on a finite map, whatever
    order the hash table is traversed in. *)
Theorem C39_finite_map : forall (klt : value -> value -> bool) (e : endian) (tk : ty)
  (iter : umap (value * value) -> list (list N * (value * value))) (ops : list mem_op) (user : list N),
  strict_order klt -> (forall m, Permutation (iter m) m) -> keys_typed klt tk ops ->
  res_outs (mem_run e tk iter ops (mkMem [] user)) (fm_run ops ([], user)).
Proof.
  intros klt e tk iter ops user HO HI HK. apply (mem_run_ok klt HO); auto. split; [reflexivity|]. split; constructor.
Qed.
Print Assumptions C39_finite_map.
Example C39_case :
  match mem_run LittleE TDesc (fun m => m)
          [MInsert (VDesc [1]) (VPrim 5); MInsert (VDesc [2]) (VPrim 6); MInsert (VDesc [1]) (VPrim 7); MGet (VDesc [1]);
           MErase (VDesc [2]); MExist (VDesc [2]); MSize; MKeys] (mkMem [] []) with
  | Val l => l = [ORet 0; ORet 0; ORet 0; OGet 0 (Some (VPrim 7)); ODone; OBool false; ONum 1; OKeys [VDesc [1]]]
  | _ => False
  end.
Proof. vm_compute. reflexivity. Qed.
(** operator[] of a missing key aborts. *)
Example C39_missing_key : mem_run LittleE TDesc (fun m => m) [MIndex (VDesc [1])] (mkMem [] []) = Abort.
Proof. vm_compute. reflexivity. Qed.

(** C40.  A file created by a session and used by any number of further ones, on
    machines of any byte order: every operation returns what the finite map of [store_step]
    returns, as long as new keys are only inserted past the last record and updates
    are not larger than the value first stored. *)
Theorem C40_sessions : forall (klt : value -> value -> bool) (tk tv : ty) (h : host) (file : option (list N)) (user : list N)
  (ops : list disk_op) (more : list (host * list disk_op)),
  strict_order klt -> host_ok h -> Forall (fun q => host_ok (fst q)) more -> user_ok user ->
  legal_run klt tk tv ops (created user) ->
  legal_sessions klt tk tv more (reopened tk (snd (store_run tk tv ops (created user)))) ->
  exists xs d xss d',
    session klt tk tv h file create user ops = Val (xs, d) /\
    sessions klt tk tv d more = Val (xss, d') /\
    Forall2 same_out xs (fst (store_run tk tv ops (created user))) /\
    Forall2 (Forall2 same_out) xss (fst (store_sessions tk tv more (reopened tk (snd (store_run tk tv ops (created user)))))).
Proof.
  intros klt tk tv h file user ops more HK HO HM HU L LS.
  destruct (session_create_ok klt HK tk tv h file user ops HO HU L) as (xs & d & pos & B & E & SX & FO & LN).
  destruct (sessions_ok klt HK tk tv more HM pos d (reopened tk (snd (store_run tk tv ops (created user)))) B FO eq_refl eq_refl LN LS) as (xss & d' & E' & SXS).
  exists xs, d, xss, d'. auto.
Qed.
Print Assumptions C40_sessions.

(** Finding: without these conditions it is false.  After reading the first of two
    records, a new key is stored over the second one; get of the second key then returns
    the value of the third, for all keys and values. *)
Theorem C40_new_key_after_get_refuted : forall (klt : value -> value -> bool) (tk tv : ty) (h : host) (file : option (list N)) (user : list N)
  (k1 k2 k3 v1 v2 v3 : value),
  strict_order klt -> host_ok h -> user_ok user -> k1 <> k2 -> k3 <> k1 -> k3 <> k2 -> has_type klt tk k3 -> has_type klt tv v3 ->
  legal_run klt tk tv [DInsert k1 v1; DInsert k2 v2; DGet k1] (created user) ->
  exists o0 o, disk_open h file create (snd (disk_insertUserdata user new_disk)) = Val o0 /\
    disk_run klt tk tv h [DInsert k1 v1; DInsert k2 v2; DGet k1; DInsert k3 v3; DGet k2] o0 =
      Val ([ORet 0; ORet 0; OGet 0 (Some v1); ORet 0; OGet 0 (Some v3)], o).
Proof. intros klt tk tv h file user k1 k2 k3 v1 v2 v3 HK. now apply new_key_after_get. Qed.
Print Assumptions C40_new_key_after_get_refuted.

Definition case_host (e : endian) : host := mkHost e DivGivesZero (fun m => m).
Definition rev_host (e : endian) : host := mkHost e DivGivesZero (fun m => rev m).
Lemma case_host_ok e : host_ok (case_host e). Proof. split; [reflexivity|]. intros m. apply Permutation_refl. Qed.
Lemma rev_host_ok e : host_ok (rev_host e). Proof. split; [reflexivity|]. intros m. apply Permutation_sym, Permutation_rev. Qed.

Local Ltac decide_typed :=
  repeat match goal with
         | |- In _ _ => cbn; tauto
         | |- int_size _ => reflexivity
         | |- _ < _ => vm_compute; reflexivity
         | |- (_ <= _)%nat => vm_compute; repeat constructor
         | |- _ = _ => vm_compute; reflexivity
         | |- bytes_ok _ => constructor
         | |- Forall _ _ => constructor
         | |- has_type _ _ _ => constructor
         | |- user_ok _ => split
         | |- fits _ _ => split
         | |- True => exact I
         | |- _ /\ _ => split
         end.
Lemma legal_cons klt tk tv op r s s' : fits tk s -> legal klt tk tv op s -> snd (store_step tk tv op s) = s' ->
  legal_run klt tk tv r s' -> legal_run klt tk tv (op :: r) s.
Proof. intros F L <- R. cbn [legal_run]. auto. Qed.
Local Ltac decide_room :=
  match goal with
  | |- match ?x with _ => _ end => let y := eval vm_compute in x in change x with y; cbv beta iota; vm_compute; repeat constructor
  end.
Local Ltac decide_legal :=
  repeat match goal with
         | |- legal_run ?klt ?tk ?tv (?op :: ?r) ?s =>
             let s' := eval vm_compute in (snd (store_step tk tv op s)) in
             apply (legal_cons klt tk tv op r s s'); [decide_typed|cbn [legal]; decide_typed; try decide_room|vm_compute; reflexivity|]
         | |- legal_run _ _ _ [] _ => cbn [legal_run]; decide_typed
         end.

Definition case_ops : list disk_op :=
  [DInsert (VDesc [1]) (VDesc [5; 6]); DInsert (VDesc [2; 3]) (VDesc [7]); DInsert (VDesc [1]) (VDesc [8]); DGet (VDesc [2; 3]);
   DFlush; DInsert (VDesc []) (VDesc [9; 9; 9]); DGet (VDesc [1]); DKeys].
Example C40_case_legal : user_ok [65; 66] /\ legal_run key_less TDesc TDesc case_ops (created [65; 66]).
Proof. split; [decide_typed|]. unfold case_ops. decide_legal. Qed.
Example C40_case :
  match session key_less TDesc TDesc (case_host LittleE) None create [65; 66] case_ops with
  | Val (xs, d) =>
      xs = [ORet 0; ORet 0; ORet 0; OGet 0 (Some (VDesc [7])); ODone; ORet 0; OGet 0 (Some (VDesc [8])); OKeys [VDesc []; VDesc [2; 3]; VDesc [1]]] /\
      match sessions key_less TDesc TDesc d
              [(rev_host BigE, [DGet (VDesc []); DGet (VDesc [1]); DGet (VDesc [4]); DGetUser]); (case_host LittleE, [DGet (VDesc [2; 3]); DSize])] with
      | Val (xss, _) => xss = [[OGet 0 (Some (VDesc [9; 9; 9])); OGet 0 (Some (VDesc [8])); OGet 1 None; OUser [65; 66]];
                               [OGet 0 (Some (VDesc [7])); ONum 3]]
      | _ => False
      end
  | _ => False
  end.
Proof. vm_compute. auto. Qed.
Example C40_refuted_case :
  match bind (disk_open (case_host LittleE) None create new_disk) (disk_run key_less TDesc TDesc (case_host LittleE)
          [DInsert (VDesc [1]) (VDesc [5]); DInsert (VDesc [2]) (VDesc [6]); DGet (VDesc [1]); DInsert (VDesc [3]) (VDesc [7]); DGet (VDesc [2])]) with
  | Val (xs, _) => xs = [ORet 0; ORet 0; OGet 0 (Some (VDesc [5])); ORet 0; OGet 0 (Some (VDesc [7]))]
  | _ => False
  end.
Proof. vm_compute. reflexivity. Qed.

(** Finding: an update by a longer value runs into the next record.  Here the next value is
    no longer readable; in the second history get silently returns another one. *)
Theorem C40_longer_update_refuted :
  bind (disk_open (case_host LittleE) None create new_disk) (disk_run key_less TDesc TDesc (case_host LittleE)
    [DInsert (VDesc [1]) (VDesc [5]); DInsert (VDesc [2]) (VDesc [6]); DInsert (VDesc [1]) (VDesc [5; 1; 1; 1; 1; 0; 0; 0; 1]); DGet (VDesc [2])]) = Abort /\
  match bind (disk_open (case_host LittleE) None create new_disk) (disk_run key_less TDesc TDesc (case_host LittleE)
    [DInsert (VDesc [1]) (VDesc [5]); DInsert (VDesc [2]) (VDesc [6]); DInsert (VDesc [1]) (VDesc [5; 1; 1; 1; 1; 0; 0; 0; 1; 9; 166; 229; 126; 248]); DGet (VDesc [2])]) with
  | Val (xs, _) => xs = [ORet 0; ORet 0; ORet 0; OGet 0 (Some (VDesc [9]))]
  | _ => False
  end.
Proof. vm_compute. auto. Qed.
Print Assumptions C40_longer_update_refuted.

(** C41.  Distinct keys inserted into a new file are all there, with their values and the user
    data, when another machine opens it. *)
Definition content_len (tk tv : ty) (l : list (value * value)) : N :=
  fold_right (fun p n => N.of_nat (nbytes tk (fst p)) + N.of_nat (nbytes tv (snd p)) + 24 + n) 0 l.
Definition inserts (l : list (value * value)) : list disk_op := map (fun p => DInsert (fst p) (snd p)) l.
Definition with_room (tv : ty) (l : list (value * value)) : fmap (value * nat) := map (fun p => (fst p, (snd p, nbytes tv (snd p)))) l.

Lemma keymap_len_app tk (m n : fmap (value * nat)) : keymap_len tk (m ++ n) = keymap_len tk m + keymap_len tk n - 8.
Proof.
  unfold keymap_len. rewrite fold_right_app. set (f := fun (p : value * (value * nat)) (x : N) => _).
  assert (X : forall x, fold_right f x m = fold_right f 0 m + x).
  { induction m as [|p m IH]; intros x; cbn [fold_right]; [lia|]. rewrite IH. unfold f. lia. }
  rewrite X. lia.
Qed.
Lemma write_only klt tk tv l : forall s, t_past s = true -> Forall (fun p => has_type klt tk (fst p) /\ has_type klt tv (snd p) /\ int_size (nbytes tk (fst p))) l ->
  NoDup (map fst (t_map s) ++ map fst l) -> t_len s + keymap_len tk (t_map s) + content_len tk tv l < 2 ^ 63 ->
  N.of_nat (length (t_map s) + length l) < 2 ^ 32 ->
  legal_run klt tk tv (inserts l) s /\
  let s' := snd (store_run tk tv (inserts l) s) in
  fst (store_run tk tv (inserts l) s) = map (fun _ => ORet 0) l /\
  t_map s' = t_map s ++ with_room tv l /\ t_past s' = true /\ t_user s' = t_user s /\
  t_len s' + keymap_len tk (t_map s') = t_len s + keymap_len tk (t_map s) + content_len tk tv l.
Proof.
  induction l as [|[k v] l IH]; intros s HP HT ND HL HC; cbn [inserts map legal_run store_run fst snd with_room content_len fold_right] in *.
  - split; [split; cbn [length] in *; lia|]. rewrite app_nil_r. repeat split; auto; try congruence. lia.
  - inversion HT as [|? ? (Hk & Hv & Hi) HT']; subst. cbn [fst snd] in *.
    assert (LK : lookup k (t_map s) = None).
    { apply lookup_none. apply NoDup_remove_2 in ND. intros X. apply ND, in_app_iff. now left. }
    assert (PN : put k (v, nbytes tv v) (t_map s) = t_map s ++ [(k, (v, nbytes tv v))]) by now apply put_new.
    cbn [store_step]. rewrite LK, PN. cbn [fst snd].
    set (s1 := mkStore (t_map s ++ [(k, (v, nbytes tv v))]) true true (t_user s) (t_len s + N.of_nat (nbytes tv v) + 4)).
    fold (content_len tk tv l) in *. assert (KL : keymap_len tk (t_map s1) = keymap_len tk (t_map s) + N.of_nat (nbytes tk k) + 20).
    { cbn [s1 t_map]. rewrite keymap_len_app. unfold keymap_len at 2. cbn [fold_right fst]. unfold keymap_len. lia. }
    destruct (IH s1) as (L1 & E1 & M1 & P1 & U1 & LN1); auto.
    + cbn [s1 t_map]. rewrite map_app. cbn [map fst]. rewrite <- app_assoc. exact ND.
    + rewrite KL. cbn [s1 t_len]. lia.
    + cbn [s1 t_map]. rewrite app_length. cbn [length] in *. lia.
    + fold (inserts l) in *. destruct (store_run tk tv (inserts l) s1) as [xs s2]. cbn [fst snd] in *. split.
      * split; [split; cbn [length] in *; lia|]. split; [|exact L1]. cbn [legal]. rewrite LK. auto.
      * split; [now rewrite E1|]. split; [rewrite M1; cbn [s1 t_map]; now rewrite <- app_assoc|]. split; [exact P1|]. split; [exact U1|].
        rewrite LN1, KL. cbn [s1 t_len]. lia.
Qed.

Lemma read_back klt tk tv l s : Forall (has_type klt tk) (map fst l) -> fits tk s ->
  (forall p, In p l -> lookup (fst p) (t_map s) = Some (snd p, nbytes tv (snd p))) ->
  legal_run klt tk tv (map (fun p => DGet (fst p)) l) s /\
  fst (store_run tk tv (map (fun p => DGet (fst p)) l) s) = map (fun p => OGet 0 (Some (snd p))) l.
Proof.
  revert s. induction l as [|[k v] l IH]; intros s HT F HL; cbn [map legal_run store_run fst snd] in *; [auto|]. inversion HT; subst.
  cbn [store_step]. pose proof (HL (k, v) (or_introl eq_refl)) as LK. cbn [fst snd] in LK. rewrite LK. cbn [fst snd].
  destruct (IH (mkStore (t_map s) false (t_dirty s) (t_user s) (t_len s)) H2 F) as (L & E).
  { intros p Hp. cbn [t_map]. apply HL. now right. }
  destruct (store_run tk tv _ _) as [xs s2]. cbn [fst snd] in *. split; [auto|]. now rewrite E.
Qed.

Theorem C41_write_only : forall (klt : value -> value -> bool) (tk tv : ty) (h1 h2 : host) (file : option (list N)) (user : list N) (l : list (value * value)),
  strict_order klt -> host_ok h1 -> host_ok h2 -> user_ok user ->
  Forall (fun p => has_type klt tk (fst p) /\ has_type klt tv (snd p) /\ int_size (nbytes tk (fst p))) l -> NoDup (map fst l) ->
  header_len user + 2 * (8 + content_len tk tv l) < 2 ^ 63 -> N.of_nat (length l) < 2 ^ 32 ->
  exists d ks d',
    session klt tk tv h1 file create user (inserts l) = Val (map (fun _ => ORet 0) l, d) /\
    session klt tk tv h2 (Some d) read_write [] (DKeys :: DSize :: DGetUser :: map (fun p => DGet (fst p)) l) =
      Val (OKeys ks :: ONum (N.of_nat (length l)) :: OUser user :: map (fun p => OGet 0 (Some (snd p))) l, d') /\
    Permutation ks (map fst l).
Proof.
  intros klt tk tv h1 h2 file user l HK HO1 HO2 HU HT ND HL HC.
  destruct (write_only klt tk tv l (created user)) as (L1 & E1 & M1 & P1 & U1 & LN1); auto; try (cbn [created t_map t_len length]; unfold keymap_len; cbn [fold_right]; lia).
  destruct (session_create_ok klt HK tk tv h1 file user (inserts l) HO1 HU L1) as (xs & d & pos & B & ES & SX & FO & LN).
  cbv zeta in *. set (s := snd (store_run tk tv (inserts l) (created user))) in *. rewrite E1 in SX.
  assert (XS : xs = map (fun _ => ORet 0) l).
  { clear - SX. remember (map (fun _ => ORet 0) l) as ys eqn:Y. revert l Y. induction SX as [|x y xs ys H _ IH]; intros [|p l] Y; try discriminate; [reflexivity|].
    cbn [map] in Y. inversion Y; subst. cbn [map]. f_equal; [destruct x; inversion H; reflexivity|]. exact (IH l eq_refl). }
  subst xs. cbn [created t_map app t_len t_user] in M1, U1, LN1.
  assert (KC : keymap_len tk (t_map s) <= 8 + content_len tk tv l).
  { rewrite M1. clear. unfold keymap_len, with_room, content_len. induction l as [|p l IH]; cbn [map fold_right fst snd]; lia. }
  assert (FT : fits tk (reopened tk s)).
  { unfold fits, reopened. cbn [t_len t_map]. rewrite M1. unfold with_room. rewrite map_length. fold (with_room tv l). rewrite <- M1.
    replace (keymap_len tk ([] : fmap (value * nat))) with 8 in LN1 by reflexivity. split; [|exact HC]. destruct (t_dirty s); lia. }
  destruct (read_back klt tk tv l (reopened tk s)) as (L2 & E2).
  { clear - HT. induction HT as [|p l (H & _) _ IH]; cbn [map]; constructor; auto. }
  { exact FT. }
  { intros p Hp. cbn [reopened t_map]. rewrite M1. apply In_lookup; [unfold with_room; rewrite map_map; exact ND|].
    unfold with_room. apply in_map_iff. exists p. split; [reflexivity|exact Hp]. }
  assert (L3 : legal_run klt tk tv (DKeys :: DSize :: DGetUser :: map (fun p => DGet (fst p)) l) (reopened tk s)).
  { exact (conj FT (conj I (conj FT (conj I (conj FT (conj I L2)))))). }
  destruct (session_ok klt HK tk tv h2 _ pos d (reopened tk s) B HO2 FO eq_refl eq_refl LN L3) as (ys & d' & _ & _ & ES' & SX' & _).
  cbn [store_run store_step] in SX'. destruct (store_run tk tv (map (fun p => DGet (fst p)) l) (reopened tk s)) as [zs s2]. cbn [fst] in *. subst zs.
  clearbody s. inversion SX' as [|y1 ? ys1 ? Y1 SX1]; subst. inversion SX1 as [|y2 ? ys2 ? Y2 SX2]; subst. inversion SX2 as [|y3 ? ys3 ? Y3 SX3]; subst.
  destruct y1; cbn [same_out] in Y1; try discriminate. destruct y2; cbn [same_out] in Y2; try discriminate. destruct y3; cbn [same_out] in Y3; try discriminate.
  assert (YS : ys3 = map (fun p => OGet 0 (Some (snd p))) l).
  { clear - SX3. remember (map (fun p => OGet 0 (Some (snd p))) l) as zs eqn:Y. revert l Y. induction SX3 as [|x y xs ys H _ IH]; intros [|p l] Y; try discriminate; [reflexivity|].
    cbn [map] in Y. inversion Y; subst. cbn [map]. f_equal; [destruct x; inversion H; reflexivity|]. exact (IH l eq_refl). }
  subst ys3. exists d, l0, d'. split; [exact ES|]. split.
  - rewrite ES'. do 4 f_equal; [f_equal|f_equal].
    + inversion Y2. cbn [reopened t_map]. rewrite M1. unfold with_room. rewrite map_length. apply N.mod_small. exact HC.
    + f_equal. inversion Y3. reflexivity.
  - cbn [reopened t_map] in Y1. rewrite M1 in Y1. unfold with_room in Y1. rewrite map_map in Y1. exact Y1.
Qed.
Print Assumptions C41_write_only.

Example C41_case :
  match session key_less TDesc (TPrim 8) (case_host LittleE) None create [72] (inserts [(VDesc [1], VPrim 5); (VDesc [], VPrim 6); (VDesc [1; 1], VPrim 7)]) with
  | Val (xs, d) =>
      match session key_less TDesc (TPrim 8) (rev_host BigE) (Some d) read_write [] [DKeys; DGetUser; DGet (VDesc []); DGet (VDesc [1; 1])] with
      | Val (ys, _) => ys = [OKeys [VDesc [1; 1]; VDesc []; VDesc [1]]; OUser [72]; OGet 0 (Some (VPrim 6)); OGet 0 (Some (VPrim 7))]
      | _ => False
      end
  | _ => False
  end.
Proof. vm_compute. auto. Qed.

(** C42.  A crash in the first session, during or after any operation and before the first
    flush: opening the file aborts. *)
Theorem C42_before_first_flush : forall (klt : value -> value -> bool) (tk tv : ty) (h h' : host) (file : option (list N)) (user : list N)
  (ops : list disk_op) (op : disk_op) (f : list N),
  strict_order klt -> host_ok h -> user_ok user -> legal_run klt tk tv (ops ++ [op]) (created user) -> ~ In DFlush ops ->
  forall o0 xs o1, disk_open h file create (snd (disk_insertUserdata user new_disk)) = Val o0 ->
    disk_run klt tk tv h ops o0 = Val (xs, o1) -> crash_file tk tv h o1 op f ->
    disk_open h' (Some f) read_write new_disk = Abort.
Proof.
  intros klt tk tv h h' file user ops op f HK HO HU L HF o0 xs o1 EO ER CF.
  pose proof (crash_before_flush klt HK tk tv h file user ops op f HO HU L HF o0 xs o1 EO ER CF) as HA.
  exact (self_link_aborts h' user f read_write [] HU HA eq_refl).
Qed.
Print Assumptions C42_before_first_flush.

(** A crash after a flush (in the session that created the file), with only new keys inserted
    since: the file shows exactly the flushed map. *)
Theorem C42_after_flush : forall (klt : value -> value -> bool) (tk tv : ty) (h h' : host) (file : option (list N)) (user : list N)
  (ops1 ops2 : list disk_op) (op : disk_op) (f : list N) (ops' : list disk_op),
  strict_order klt -> host_ok h -> host_ok h' -> user_ok user ->
  let s := snd (store_run tk tv (ops1 ++ [DFlush]) (created user)) in
  legal_run klt tk tv (ops1 ++ DFlush :: ops2 ++ [op]) (created user) ->
  Forall (spares (map fst (t_map s))) ops2 -> (forall k v, op = DInsert k v -> ~ In k (map fst (t_map s))) ->
  forall o0 xs o1, disk_open h file create (snd (disk_insertUserdata user new_disk)) = Val o0 ->
    disk_run klt tk tv h (ops1 ++ DFlush :: ops2) o0 = Val (xs, o1) -> crash_file tk tv h o1 op f ->
    legal_run klt tk tv ops' (flushed_only s f) ->
  exists ys d', session klt tk tv h' (Some f) read_write [] ops' = Val (ys, d') /\
    Forall2 same_out ys (fst (store_run tk tv ops' (flushed_only s f))).
Proof. intros klt tk tv h h' file user ops1 ops2 op f ops' HK. now apply crash_after_flush. Qed.
Print Assumptions C42_after_flush.

(** The same for a crash in a later session before its first flush: the file shows what the previous
    sessions stored. *)
Theorem C42_after_close : forall (klt : value -> value -> bool) (tk tv : ty) (h h' : host) (d : list N) (s : store)
  (ops : list disk_op) (op : disk_op) (f : list N) (ops' : list disk_op),
  strict_order klt -> stored klt tk tv d s -> host_ok h -> host_ok h' ->
  legal_run klt tk tv (ops ++ [op]) s ->
  Forall (spares (map fst (t_map s))) ops -> (forall k v, op = DInsert k v -> ~ In k (map fst (t_map s))) ->
  forall o0 xs o1, disk_open h (Some d) read_write new_disk = Val o0 ->
    disk_run klt tk tv h ops o0 = Val (xs, o1) -> crash_file tk tv h o1 op f ->
    legal_run klt tk tv ops' (flushed_only s f) ->
  exists ys d', session klt tk tv h' (Some f) read_write [] ops' = Val (ys, d') /\
    Forall2 same_out ys (fst (store_run tk tv ops' (flushed_only s f))).
Proof. intros klt tk tv h h' d s ops op f ops' HK. now apply crash_after_close. Qed.
Print Assumptions C42_after_close.

(** Finding: a crash while the header is being written (it stays in the stream's buffer until
    more data follow) leaves a shorter file; opening it uses uninitialised memory. *)
Theorem C42_truncated_header_refuted : forall (h h' : host) (file : option (list N)) (user : list N) (n : nat) (mode : openmode) o0,
  host_ok h -> user_ok user -> m_trunc mode = false ->
  disk_open h file create (snd (disk_insertUserdata user new_disk)) = Val o0 -> (n < length (disk_file o0))%nat ->
  disk_open h' (Some (firstn n (disk_file o0))) mode new_disk = Undef.
Proof.
  intros h h' file user n mode o0 HO HU HM EO HN. destruct (open_new_ok (fun _ _ => false) TDesc TDesc h file user HO HU) as (o & E & ED & _).
  rewrite EO in E. injection E as <-. rewrite ED in *. unfold disk_open. cbn [new_disk d_state d_user d_map].
  unfold fstream_open, checkForNewFile. rewrite HM. cbn [orb].
  destruct (m_out mode);
  rewrite (truncated_header (h_e h') user (link_pos user) n HU (user_small user HU) HN); reflexivity.
Qed.
Print Assumptions C42_truncated_header_refuted.

(** Finding: a crash while a value is being updated can leave a mixture of the old and the new
    value whose checksum is that of the old one; get then returns a value never stored.
    The first word of the new value is a multiple of the CRC polynomial. *)
Definition mixed : value := VPair (VPrim 6814697335) (VPrim 0).
Theorem C42_torn_update_refuted :
  let k := VDesc [1] in let old := VPair (VPrim 0) (VPrim 0) in let new := VPair (VPrim 6814697335) (VPrim 1) in
  let t := TPair (TPrim 8) (TPrim 8) in let h := case_host LittleE in
  match session key_less TDesc t h None create [] [DInsert k old] with
  | Val (_, d) =>
      match disk_open h (Some d) read_write new_disk with
      | Val o => match disk_insert TDesc t h k new o with
                 | Val (_, o') =>
                     let f := torn (disk_file o) (disk_file o') 69 in
                     match session key_less TDesc t h (Some f) read_write [] [DGet k] with
                     | Val (xs, _) => xs = [OGet 0 (Some mixed)] /\ mixed <> old /\ mixed <> new
                     | _ => False
                     end
                 | _ => False
                 end
      | _ => False
      end
  | _ => False
  end.
Proof. vm_compute. repeat split; discriminate. Qed.
Print Assumptions C42_torn_update_refuted.

(** A case: two keys flushed, a third one inserted, the fourth insert torn after 7 bytes. *)
Definition crash_ops1 : list disk_op := [DInsert (VDesc [1]) (VPrim 5); DInsert (VDesc [2]) (VPrim 6)].
Example C42_case_legal :
  legal_run key_less TDesc (TPrim 4) (crash_ops1 ++ DFlush :: [DInsert (VDesc [3]) (VPrim 7)] ++ [DInsert (VDesc [4]) (VPrim 8)]) (created []).
Proof. unfold crash_ops1. cbn [app]. decide_legal. Qed.
Example C42_case :
  let h := case_host LittleE in
  match disk_open h None create new_disk with
  | Val o =>
      match disk_run key_less TDesc (TPrim 4) h (crash_ops1 ++ DFlush :: [DInsert (VDesc [3]) (VPrim 7)]) o with
      | Val (_, o1) =>
          match disk_insert TDesc (TPrim 4) h (VDesc [4]) (VPrim 8) o1 with
          | Val (_, o2) =>
              let f := torn (disk_file o1) (disk_file o2) (length (disk_file o1) + 7) in
              length f = (length (disk_file o2) - 1)%nat /\
              match session key_less TDesc (TPrim 4) (case_host BigE) (Some f) read_write [] [DKeys; DGet (VDesc [2]); DGet (VDesc [3])] with
              | Val (xs, _) => xs = [OKeys [VDesc [1]; VDesc [2]]; OGet 0 (Some (VPrim 6)); OGet 1 None]
              | _ => False
              end
          | _ => False
          end
      | _ => False
      end
  | _ => False
  end.
Proof. vm_compute. auto. Qed.

(** C64.  Finding: the conversion of stream positions divides by pos_type(max uint64) + pos_type(1),
    which is zero.  On a machine that traps, no file can be created, no new key inserted and no modified
    file closed. *)
Theorem C64_division_traps_refuted : forall (klt : value -> value -> bool) (tk tv : ty) (h : host), h_zd h = DivTraps ->
  (forall file user, user_ok user -> disk_open h file create (snd (disk_insertUserdata user new_disk)) = Undef) /\
  (forall k v o, d_state o <> INIT -> has_type klt tk k -> disk_exist tk h k o = Val false -> disk_insert tk tv h k v o = Undef) /\
  (forall o, d_state o = MODIFIED -> disk_close h o = Undef /\ disk_flush h o = Undef).
Proof.
  intros klt tk tv h HZ. split; [|split].
  - intros file user HU. now apply (open_traps h file user).
  - intros k v o. now apply insert_traps.
  - intros o. now apply close_traps.
Qed.
Print Assumptions C64_division_traps_refuted.
(** Where the division delivers zero, positions below 2^63 survive the conversion. *)
Theorem C64_positions_converted : forall (e : endian) (p : N), p < 2 ^ 63 ->
  match convertToPrivate DivGivesZero e (Z.of_N p) with Val q => convertFromPrivate e q = Z.of_N p | _ => False end.
Proof.
  intros e p H. replace (Z.of_N p) with (Z.of_nat (N.to_nat p)) by lia. rewrite to_private by (rewrite N2Nat.id; exact H).
  apply from_private. rewrite N2Nat.id. exact H.
Qed.
Print Assumptions C64_positions_converted.
(** Finding: the default open mode cannot create a file. *)
Theorem C64_default_mode_refuted : forall (h : host) (user : list N),
  disk_open h None read_write (snd (disk_insertUserdata user new_disk)) = Abort.
Proof. intros h user. now apply open_missing. Qed.
Print Assumptions C64_default_mode_refuted.
Example C64_case : convertToPrivate DivGivesZero LittleE 1234 = Val (1234, 0) /\ convertToPrivate DivTraps LittleE 1234 = Undef.
Proof. vm_compute. auto. Qed.

(** C65.  Finding: an object used for a second file still lists the keys of the first. *)
Theorem C65_object_reuse_refuted : forall (klt : value -> value -> bool) (tk tv : ty) (h : host) (file1 file2 : option (list N)) (user : list N)
  (ops : list disk_op) (k : value),
  strict_order klt -> host_ok h -> user_ok user -> legal_run klt tk tv ops (created user) ->
  In k (map fst (t_map (snd (store_run tk tv ops (created user))))) ->
  match bind (disk_open h file1 create (snd (disk_insertUserdata user new_disk))) (fun o =>
        bind (disk_run klt tk tv h ops o) (fun '(_, o) => bind (disk_close h o) (fun o =>
        disk_open h file2 create o))) with
  | Val o => disk_exist tk h k o = Val true
  | _ => False
  end.
Proof. intros klt tk tv h file1 file2 user ops k HK. now apply stale_keys. Qed.
Print Assumptions C65_object_reuse_refuted.
(** A new object opening a stored file lists exactly the keys of that file. *)
Theorem C65_new_object : forall (klt : value -> value -> bool) (tk tv : ty) (h : host) (d : list N) (s : store),
  strict_order klt -> host_ok h -> stored klt tk tv d s ->
  match disk_open h (Some d) read_write new_disk with
  | Val o => match disk_keys klt tk h o with Val ks => Permutation ks (map fst (t_map s)) | _ => False end
  | _ => False
  end.
Proof.
  intros klt tk tv h d s HK HO HS. destruct (stored_ok klt HK tk tv _ _ HS) as (pos & B & FO & HP & HD & HL).
  destruct (open_ok klt HK tk tv h pos _ _ _ _ [] HO FO) as (o & E & _ & I).
  replace (snd (disk_insertUserdata [] new_disk)) with new_disk in E by reflexivity. rewrite E.
  destruct (keys_ok klt HK tk tv _ _ _ _ _ HO (I _ HL)) as (ks & -> & P). exact P.
Qed.
Print Assumptions C65_new_object.
Example C65_case :
  match bind (disk_open (case_host LittleE) None create new_disk) (fun o =>
        bind (disk_run key_less TDesc TDesc (case_host LittleE) [DInsert (VDesc [1]) (VDesc [5])] o) (fun '(_, o) =>
        bind (disk_close (case_host LittleE) o) (fun o => disk_open (case_host LittleE) None create o))) with
  | Val o => disk_keys key_less TDesc (case_host LittleE) o = Val [VDesc [1]]
  | _ => False
  end.
Proof. vm_compute. reflexivity. Qed.

(** C66.  Finding: inserting into a file opened for reading reports success, and the key
    then exists; nothing is stored. *)
Theorem C66_read_only_insert_refuted : forall (klt : value -> value -> bool) (tk tv : ty) (h : host) (d : list N) (s : store) (k v : value),
  strict_order klt -> stored klt tk tv d s -> fits tk s -> host_ok h -> has_type klt tk k -> has_type klt tv v -> int_size (nbytes tk k) ->
  exists o1 o2, bind (disk_open h (Some d) (mkMode false false) new_disk) (disk_insert tk tv h k v) = Val (0%nat, o1) /\
    disk_exist tk h k o1 = Val true /\ disk_close h o1 = Val o2 /\ disk_file o2 = d.
Proof. intros klt tk tv h d s k v HK HS FT HO Hk Hv Hi. exact (read_only_insert klt HK tk tv h d s k v HS FT HO Hk Hv Hi). Qed.
Print Assumptions C66_read_only_insert_refuted.
(** An object that is not open reports failure. *)
Theorem C66_closed_object : forall (klt : value -> value -> bool) (tk tv : ty) (h : host) (k v : value) (o : disk), d_state o = INIT ->
  disk_insert tk tv h k v o = Val (1%nat, o) /\ disk_get klt tk tv h k o = Val (1%nat, None, o) /\ disk_keys klt tk h o = Val [] /\
  disk_getUserdata o = (1%nat, None).
Proof. intros klt tk tv h k v o H. unfold disk_insert, disk_get, disk_keys, disk_getUserdata. rewrite H. auto. Qed.
Print Assumptions C66_closed_object.
Example C66_case :
  match session key_less TDesc TDesc (case_host LittleE) None create [] [DInsert (VDesc [1]) (VDesc [5])] with
  | Val (_, d) =>
      match bind (disk_open (case_host LittleE) (Some d) (mkMode false false) new_disk) (disk_insert TDesc TDesc (case_host LittleE) (VDesc [2]) (VDesc [6])) with
      | Val (r, o) => r = 0%nat /\ match disk_close (case_host LittleE) o with Val o' => disk_file o' = d | _ => False end
      | _ => False
      end
  | _ => False
  end.
Proof. vm_compute. auto. Qed.

(** C67.  Several stored files opened as one: get finds the value in the first file that has the key,
    keys lists the keys of all files once. *)
Theorem C67_several_files : forall (klt : value -> value -> bool) (tk tv : ty) (h : host) (iter1 : umap unit -> list (list N * unit))
  (files : list (list N)) (l : list store) (ops : list multi_op),
  strict_order klt -> host_ok h -> (forall m, Permutation (iter1 m) m) ->
  Forall2 (fun d s => stored klt tk tv d s /\ fits tk s) files l -> Forall (multi_typed klt tk) ops ->
  exists dbs xs, multi_open h (map Some files) = Val dbs /\ multi_run klt tk tv h iter1 ops dbs = Val xs /\
    Forall2 (fun op x => multi_expected op l x) ops xs.
Proof.
  intros klt tk tv h iter1 files l ops HK HO HI HF HT.
  destruct (multi_open_ok klt HK tk tv h (map Some files) l HO) as (dbs & E & OP).
  { clear - HF. induction HF as [|d s files l (H1 & H2) _ IH]; cbn [map]; constructor; eauto. }
  destruct (multi_run_ok klt HK tk tv h iter1 ops l HO HI HT dbs OP) as (xs & E' & EX). eauto 6.
Qed.
Print Assumptions C67_several_files.
(** Findings: before open, fileExists reports any list of files as existing; after close, a second close
    uses deleted objects. *)
Theorem C67_file_exists_refuted : forall files : list (option (list N)), multi_fileExists [] files = Val true.
Proof. reflexivity. Qed.
Print Assumptions C67_file_exists_refuted.
Theorem C67_second_close_refuted : forall (klt : value -> value -> bool) (tk tv : ty) (h : host) (files : list (list N)) (l : list store),
  strict_order klt -> host_ok h -> Forall2 (fun d s => stored klt tk tv d s /\ fits tk s) files l -> files <> [] ->
  match bind (multi_open h (map Some files)) (multi_close h) with
  | Val dbs => multi_close h dbs = Undef /\ forall k, multi_exist tk h k dbs = Undef
  | _ => False
  end.
Proof.
  intros klt tk tv h files l HK HO HF HN.
  destruct (multi_open_ok klt HK tk tv h (map Some files) l HO) as (dbs & E & OP).
  { clear - HF. induction HF as [|d s files l (H1 & H2) _ IH]; cbn [map]; constructor; eauto. }
  rewrite E. cbn [bind]. rewrite (multi_close_ok klt tk tv h dbs l OP).
  destruct OP; [destruct HF; [congruence|cbn [map multi_open] in E]|split; reflexivity].
  exfalso. destruct (disk_open h (Some x) (mkMode false false) new_disk); cbn [bind] in E; try discriminate.
  destruct (multi_open h (map Some l)); discriminate.
Qed.
Print Assumptions C67_second_close_refuted.
Example C67_case :
  match session key_less TDesc (TPrim 4) (case_host LittleE) None create [72] (inserts [(VDesc [1], VPrim 5); (VDesc [2], VPrim 6)]),
        session key_less TDesc (TPrim 4) (case_host BigE) None create [] (inserts [(VDesc [2], VPrim 7); (VDesc [3], VPrim 8)]) with
  | Val (_, d1), Val (_, d2) =>
      match bind (multi_open (case_host LittleE) [Some d1; Some d2])
              (multi_run key_less TDesc (TPrim 4) (case_host LittleE) (fun m => m) [XGet (VDesc [2]); XGet (VDesc [3]); XGet (VDesc [4]); XKeys; XGetUser]) with
      | Val xs => xs = [XFound (VPrim 6); XFound (VPrim 8); XMissing; XList [VDesc [3]; VDesc [2]; VDesc [1]]; XUser [72]]
      | _ => False
      end
  | _, _ => False
  end.
Proof. vm_compute. reflexivity. Qed.

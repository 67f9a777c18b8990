From Coq Require Import List Bool Arith NArith ZArith Lia Permutation.
From Coq Require Import Ring Ring_theory InitialRing ZArithRing.
From Verif Require Import EvalModel SseMachine SseKernels SseSpec SseEval SseFields SseBlasSpec SseBlas
  SseBlasProofs SseBlasSums SseBlasReduce PropSse.
Import ListNotations.
Open Scope nat_scope.

(** ** C100: statements on fermion fields and sums over them in SSE builds *)

(** d[s] op ...: every site of the subset gets the value of the right-hand side computed from
    the old fields, nothing else changes - whatever the number of threads, the order of their
    calls, and whichever of d, x, y are the same field. *)
Theorem C100_statement : forall (R : cring) o threads s l0 vol kb d x y (a b ia : R) (m : mem R) D X Y cs,
  0 < threads -> subset_of vol s l0 -> Permutation cs (calls (vthreads o threads) s) ->
  d <> kb -> x <> kb -> y <> kb ->
  field_at m d vol D -> field_at m x vol X -> field_at m y vol Y ->
  exists m', evaluate_vop (arith_of R) o s kb d x y a b ia cs m = Some m' /\
    (forall i, i < vol -> In i l0 ->
       ferm_at m' d (24 * i) (meaning (arith_of R) o a b ia (D i) (X i) (Y i))) /\
    (forall i, i < vol -> ~ In i l0 -> ferm_at m' d (24 * i) (D i)) /\
    (forall b' o', b' <> kb -> b' <> d \/ 24 * vol <= o' -> m' b' o' = m b' o').
Proof.
  intros R o threads s l0 vol kb d x y a b ia m D X Y cs HT Hs HP Kd Kx Ky HD HX HY.
  assert (HT' : 0 < vthreads o threads) by (destruct o; cbn; lia).
  destruct (subset_sites _ _ _ _ _ Hs HT' HP) as [N I]. destruct Hs as [_ [_ Hvol]].
  rewrite field_words in HD, HX, HY.
  destruct (statement R o s kb d x y a b ia vol m _ _ _ cs Kd Kx Ky HD HX HY N) as [m' [E1 [E2 E3]]].
  { intros i Hi. apply Hvol, I, Hi. }
  assert (W : forall i j, i < vol -> j < 24 ->
     m' d (24 * i + j) = Some (if isin i (visited cs) then fword (meaning (arith_of R) o a b ia (D i) (X i) (Y i)) j else fword (D i) j)).
  { intros i j Hi Hj. specialize (E2 (24 * i + j) ltac:(lia)). cbn [Nat.add] in E2. cbn beta in E2. rewrite E2. f_equal.
    assert (Q : (24 * i + j) / 24 = i).
    { rewrite (Nat.mul_comm 24), Nat.div_add_l, Nat.div_small, Nat.add_0_r by lia. reflexivity. }
    assert (Q' : (24 * i + j) mod 24 = j).
    { rewrite Nat.add_comm, (Nat.mul_comm 24), Nat.mod_add, Nat.mod_small by lia. reflexivity. }
    unfold field_word. rewrite Q, Q'. rewrite meaning_word. reflexivity. }
  exists m'. split; [exact E1|]. split; [|split; [|exact E3]].
  - intros i Hi H. rewrite ferm_words. intros j Hj. rewrite (W i j Hi Hj). apply I in H. apply isin_in in H. now rewrite H.
  - intros i Hi H. rewrite ferm_words. intros j Hj. rewrite (W i j Hi Hj).
    destruct (isin i (visited cs)) eqn:Q; [exfalso; apply H, I, isin_in, Q|reflexivity].
Qed.

(** norm2(x,s), innerProduct(x,y,s), innerProductReal(x,y,s): the sum over the sites of the
    subset, in SSE2 and SSE3 builds - if the subset has a site table, or the sum is
    innerProductReal, or no thread is left without a site. *)
Theorem C100_sum : forall (R : cring) w r s threads rb tb x y c vol (m : mem R) X Y cs,
  0 < threads ->
  (forall a b, s = Ordered a b -> Permutation cs (dispatch threads (S b - a)) /\
     (r = InnerReal \/ threads <= S b - a)) ->
  (forall i, In i (sites s) -> i < vol) ->
  x <> rb -> y <> rb -> x <> tb -> y <> tb ->
  field_at m x vol X -> field_at m y vol Y ->
  c < parts r ->
  (forall j, j < parts r * threads -> m rb j <> None) -> (forall j, j < parts r -> m tb j <> None) ->
  reduce (arith_of R) w r s threads rb tb x y c cs m =
    Some (sum_over (arith_of R) (sites s) (fun i => site_part (arith_of R) r (X i) (Y i) c)).
Proof.
  intros R w r s threads rb tb x y c vol m X Y cs HT Hs Hvol Nx Ny Tx Ty HX HY Hc Hrb Htb.
  destruct s as [a b|tab].
  - destruct (Hs a b eq_refl) as [HP Hn]. cbn [sites] in *.
    assert (Hv : forall i, a <= i <= b -> i < vol) by (intros i Hi; apply Hvol, in_seq; lia).
    rewrite <- total_over.
    assert (CR : forall r', {r' = InnerReal} + {r' <> InnerReal}) by (intros []; [right|right|left]; congruence).
    destruct (CR r) as [->|Hr].
    + cbn [parts] in *. replace c with 0 by lia.
      rewrite (real_ordered R w a b threads rb tb x y vol m X Y cs Hv HX HY (Htb 0 ltac:(lia))). reflexivity.
    + destruct Hn as [Hn|Hn]; [contradiction|].
      set (old := fun i c' => match m rb (parts r * i + c') with Some v => v | None => c0 R end).
      rewrite (ordered_value R w r a b threads rb tb x y c vol m X Y old cs Hr HT HP Hv Nx Ny HX HY Hc).
      * replace (threads - (S b - a)) with 0 by lia. cbn [total]. f_equal.
        generalize (total (arith_of R) (S b - a) (fun i => site_part (arith_of R) r (X (a + i)) (Y (a + i)) c)).
        intros u. cbn. pose proof (claw R) as L. destruct L as [L1 L2 _ _ _ _ _ _ _]. rewrite L2. apply L1.
      * intros i c' Hi Hc'. unfold old.
        assert (K : parts r * i + c' < parts r * threads) by nia. specialize (Hrb _ K).
        destruct (m rb (parts r * i + c')); [reflexivity|contradiction Hrb; reflexivity].
  - apply (listed_value R w r tab threads rb tb x y c vol m X Y cs); assumption.
Qed.

(** norm2, innerProduct and innerProductReal of arrays of fields ([l]: the pairs of fields). *)
Theorem C100_array : forall (R : cring) w r vol tb c l (m : mem R) F,
  c < parts r -> (forall j, j < parts r -> m tb j <> None) ->
  (forall x y, In (x, y) l -> x <> tb /\ y <> tb /\ field_at m x vol (F x) /\ field_at m y vol (F y)) ->
  reduce_array (arith_of R) w r vol tb c l m =
    Some (fold_right (fun p t => a_add (arith_of R)
      (total (arith_of R) vol (fun i => site_part (arith_of R) r (F (fst p) i) (F (snd p) i) c)) t)
      (a_ofZ (arith_of R) 0) l).
Proof. intros. apply array_value; assumption. Qed.

(** With more threads than sites norm2 and innerProduct over an ordered subset add what
    earlier sums left in the results of the threads that have no site. *)
Theorem C100_idle_threads : forall (R : cring) w r a b threads rb tb x y c vol (m : mem R) X Y old cs,
  r <> InnerReal -> 0 < threads -> Permutation cs (dispatch threads (S b - a)) ->
  (forall i, a <= i <= b -> i < vol) -> x <> rb -> y <> rb ->
  field_at m x vol X -> field_at m y vol Y -> c < parts r ->
  (forall i c', i < threads -> c' < parts r -> m rb (parts r * i + c') = Some (old i c')) ->
  reduce (arith_of R) w r (Ordered a b) threads rb tb x y c cs m =
    Some (a_add (arith_of R)
      (sum_over (arith_of R) (seq a (S b - a)) (fun i => site_part (arith_of R) r (X i) (Y i) c))
      (total (arith_of R) (threads - (S b - a)) (fun j => old (S b - a + j) c))).
Proof.
  intros R w r a b threads rb tb x y c vol m X Y old cs Hr HT HP Hv Nx Ny HX HY Hc Ho.
  rewrite (ordered_value R w r a b threads rb tb x y c vol m X Y old cs Hr HT HP Hv Nx Ny HX HY Hc Ho).
  rewrite <- total_over. reflexivity.
Qed.

(** Two fields of two sites (blocks 0 and 1), results in block 2, temporary in block 3. *)
Definition bword (b j : nat) : Z := if b =? 0 then (Z.of_nat j mod 5 - 1)%Z else (Z.of_nat j mod 7 - 2)%Z.
Definition bmem (b o : nat) : option Z :=
  match b with
  | 0 | 1 => if o <? 48 then Some (bword b o) else None
  | 2 => if o <? 4 then Some 0%Z else None
  | 3 => if o <? 2 then Some 0%Z else None
  | _ => None
  end.
Definition bfield (b i : nat) : fermion Z := fun s c => (bword b (24 * i + 6 * s + 2 * c), bword b (24 * i + 6 * s + 2 * c + 1)).

Lemma bfield_at b : b < 2 -> field_at (V := Z) bmem b 2 (bfield b).
Proof.
  intros Hb i Hi s c Hs Hc.
  assert (K : forall o, o < 48 -> bmem b o = Some (bword b o)).
  { intros o Ho. unfold bmem. apply Nat.ltb_lt in Ho. destruct b as [|[|b]]; [| |lia]; now rewrite Ho. }
  split; rewrite K by lia; reflexivity.
Qed.

(** norm2 over both sites with two threads, then norm2 over site 0 alone. *)
Definition second_norm : option Z :=
  match run_chunks Zar local_sumsq4 Norm2 2 0 0 0 (dispatch 2 2) bmem with
  | Some m1 => reduce Zar SSE2 Norm2 (Ordered 0 0) 2 2 3 0 0 0 (dispatch 2 1) m1
  | None => None
  end.

(** The second sum includes the norm of site 1. *)
Theorem C100_idle_threads_refuted :
  reduce Zar SSE2 Norm2 (Ordered 0 1) 2 2 3 0 0 0 (dispatch 2 2) bmem =
    Some (sum_over Zar [0; 1] (fun i => site_norm Zar (bfield 0 i))) /\
  second_norm = Some (site_norm Zar (bfield 0 0) + site_norm Zar (bfield 0 1))%Z /\
  second_norm <> Some (site_norm Zar (bfield 0 0)).
Proof. split; [vm_compute; reflexivity|]. split; [vm_compute; reflexivity|vm_compute; discriminate]. Qed.

(** ** The hypotheses are met *)
Example C100_statement_case :
  match evaluate_vop Zar AXminusBY (Ordered 0 1) 4 1 0 1 3%Z 2%Z 0%Z (calls 2 (Ordered 0 1)) bmem with
  | Some m' => m' 1 5 = Some (3 * bword 0 5 - 2 * bword 1 5)%Z /\ m' 1 47 = Some (3 * bword 0 47 - 2 * bword 1 47)%Z
  | None => False
  end.
Proof. vm_compute. split; reflexivity. Qed.

Example C100_sum_case : forall w,
  reduce Zar w Inner (Ordered 0 1) 2 2 3 0 1 1 (dispatch 2 2) bmem =
    Some (sum_over Zar [0; 1] (fun i => site_part Zar Inner (bfield 0 i) (bfield 1 i) 1)) /\
  reduce Zar w Inner (Ordered 0 1) 2 2 3 0 1 1 (dispatch 2 2) bmem <> Some 0%Z.
Proof. intros []; split; vm_compute; [reflexivity|discriminate|reflexivity|discriminate]. Qed.

Example C100_sum_met : subset_of 2 (Ordered 0 1) [0; 1] /\ (2 <= S 1 - 0) /\
  (forall j, j < parts Inner * 2 -> bmem 2 j <> None) /\ (forall j, j < parts Inner -> bmem 3 j <> None).
Proof.
  split; [|split; [lia|split]].
  - split; [intros i; cbn; lia|]. split; [repeat constructor; cbn; lia|]. intros i; cbn; lia.
  - intros j Hj. cbn in Hj. cbn [bmem]. apply Nat.ltb_lt in Hj. rewrite Hj. discriminate.
  - intros j Hj. cbn in Hj. cbn [bmem]. apply Nat.ltb_lt in Hj. rewrite Hj. discriminate.
Qed.

Example C100_array_case :
  reduce_array Zar SSE3 Norm2 2 3 0 [(0, 0); (1, 1)] bmem =
    Some (sum_over Zar [0; 1]%nat (fun i => site_norm Zar (bfield 0 i)) + sum_over Zar [0; 1]%nat (fun i => site_norm Zar (bfield 1 i)))%Z.
Proof. vm_compute. reflexivity. Qed.

Print Assumptions C100_statement.
Print Assumptions C100_sum.
Print Assumptions C100_array.
Print Assumptions C100_idle_threads.
Print Assumptions C100_idle_threads_refuted.

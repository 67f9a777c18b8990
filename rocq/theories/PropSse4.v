From Coq Require Import List Bool Arith NArith ZArith Lia Permutation.
From Coq Require Import Ring Ring_theory InitialRing ZArithRing.
From Verif Require Import Base LayoutModel SetModel.
From Verif Require Import EvalModel SseMachine SseSpec SseEval SseMatrix SseCopy SseFields SseBlasSpec SseBlas
  SseBlasProofs SseBlasReduce PropSse PropSseBlas
  Sse4Machine Sse4Kernels Sse4Eval Sse4Proofs Sse4Statements Sse4Fields Sse4Copy Sse4Sums Sse4Reduce.
Import ListNotations.
Open Scope nat_scope.

(** ** C102: single precision fields in SSE builds *)

(** d = l, d += l and d -= l of colour matrix fields: every site of the subset is assigned,
    nothing else changes - if the subset has a site table or begins at an even site. *)
Theorem C102_copy : forall (R : cring) g s l0 vol d l (m : mem R) D L,
  subset_of vol s l0 -> (forall a b, s = Ordered a b -> Nat.even a = true) ->
  mats_at m d 0 vol D -> mats_at m l 0 vol L ->
  exists m', evaluate_copy4 (arith_of R) g s d l m = Some m' /\
    (forall i, i < vol -> In i l0 -> mat_at m' d (18 * i) (assigned (arith_of R) g (D i) (L i))) /\
    (forall i, i < vol -> ~ In i l0 -> mat_at m' d (18 * i) (D i)) /\
    (forall b o, b <> d \/ 18 * vol <= o -> m' b o = m b o).
Proof.
  intros R g s l0 vol d l m D L Hs Hev HD HL.
  assert (Hin : forall i, In i (sites s) <-> In i l0).
  { destruct Hs as [H _]. destruct s as [a b|tab]; [|subst; reflexivity]. intros i. rewrite H. cbn [sites]. rewrite in_seq. lia. }
  assert (Hnd : NoDup (sites s)).
  { destruct Hs as [H [N _]]. destruct s as [a b|tab]; [apply seq_NoDup|subst; exact N]. }
  assert (Hvol : forall i, In i (sites s) -> i < vol).
  { intros i Hi. destruct Hs as [_ [_ H]]. apply H, Hin, Hi. }
  rewrite mats_words in HD, HL. rewrite (Nat.mul_comm vol) in HD, HL.
  assert (Df : forall b (h : nat -> R), words_at m b 0 (18 * vol) h -> defd m b 0 (18 * vol)).
  { intros b h H q Hq. specialize (H q ltac:(lia)). cbn [Nat.add] in H. rewrite H. discriminate. }
  destruct (copy_fields (arith_of R) g s d l vol m Hnd Hvol Hev (Df _ _ HD) (Df _ _ HL)) as [m' [E W]].
  assert (Place : forall i j, j < 18 -> (18 * i + j) / 18 = i /\ (18 * i + j) mod 18 = j).
  { intros i j Hj. rewrite (Nat.mul_comm 18), Nat.div_add_l, Nat.div_small, Nat.add_0_r by lia.
    rewrite (Nat.add_comm (i * 18)), Nat.mod_add, Nat.mod_small by lia. split; reflexivity. }
  assert (W' : forall i j, i < vol -> j < 18 ->
    m' d (18 * i + j) = Some (if isin i (sites s) then word (assigned (arith_of R) g (D i) (L i)) j else word (D i) j)).
  { intros i j Hi Hj. rewrite W, Nat.eqb_refl. destruct (Place i j Hj) as [P1 P2]. rewrite P1. cbn [andb].
    pose proof (HD (18 * i + j) ltac:(lia)) as K1. pose proof (HL (18 * i + j) ltac:(lia)) as K2. cbn [Nat.add] in K1, K2.
    cbn beta in K1, K2. rewrite P1, P2 in K1, K2. rewrite K1, K2. cbn [lift2].
    destruct (isin i (sites s)); [|reflexivity]. rewrite word_assigned by exact Hj. reflexivity. }
  exists m'. split; [exact E|]. split; [|split].
  - intros i Hi H. rewrite mat_words. intros j Hj. rewrite (W' i j Hi Hj). apply Hin, isin_in in H. now rewrite H.
  - intros i Hi H. rewrite mat_words. intros j Hj. rewrite (W' i j Hi Hj).
    destruct (isin i (sites s)) eqn:Q; [exfalso; apply H, Hin, isin_in, Q|reflexivity].
  - intros b o H. rewrite W. destruct (Nat.eqb_spec b d) as [->|N]; [|reflexivity]. cbn [andb].
    destruct (isin (o / 18) (sites s)) eqn:Q; [|reflexivity]. exfalso. apply isin_in, Hvol in Q.
    destruct H as [H|H]; [now apply H|]. assert (vol <= o / 18) by (apply Nat.div_le_lower_bound; lia). lia.
Qed.

(** If an ordered subset begins at an odd site, all three fail at the first aligned access. *)
Theorem C102_copy_odd : forall (R : cring) g a b d l (m : mem R), Nat.odd a = true -> a <= b ->
  evaluate_copy4 (arith_of R) g (Ordered a b) d l m = None.
Proof. intros R g a b d l m. exact (ordered_copy_odd (arith_of R) g d l a b m). Qed.

(** The subset as the evaluate functions see it. *)
Definition seen (s : SetModel.subset) : SseEval.subset :=
  if s_ordRep s then Ordered (Z.to_nat (s_start s)) (Z.to_nat (s_end s)) else Listed (s_table s).

(** rb[1] of a 2x3x3x3 lattice in a build with two checkerboards is such a subset. *)
Theorem C102_copy_refuted : forall (R : cring) g d l (m : mem R),
  exists s, nth_error (match set_make (scalar_layout CB2 [2; 3; 3; 3]) 0 SetRBFunc with Base.Val ss => ss | _ => [] end) 1 = Some s /\
    length (s_table s) = 27 /\ evaluate_copy4 (arith_of R) g (seen s) d l m = None.
Proof.
  intros R g d l m. eexists. split; [vm_compute; reflexivity|]. split; [reflexivity|].
  apply C102_copy_odd; [reflexivity|vm_compute; lia].
Qed.

(** d[s] op ... on fermion fields: every site of the subset gets the value of the right-hand
    side computed from the old fields, nothing else changes - whatever the number of threads,
    the order of their calls, and whichever of d, x, y are the same field. *)
Theorem C102_statement : forall (R : cring) o threads s l0 vol kb d x y (a b ia : R) (m : mem R) D X Y cs,
  0 < threads -> subset_of vol s l0 -> Permutation cs (calls threads s) ->
  d <> kb -> x <> kb -> y <> kb ->
  field_at m d vol D -> field_at m x vol X -> field_at m y vol Y ->
  exists m', evaluate_vop4 (arith_of R) o kb d x y a b ia cs m = Some m' /\
    (forall i, i < vol -> In i l0 ->
       ferm_at m' d (24 * i) (meaning (arith_of R) o a b ia (D i) (X i) (Y i))) /\
    (forall i, i < vol -> ~ In i l0 -> ferm_at m' d (24 * i) (D i)) /\
    (forall b' o', b' <> kb -> b' <> d \/ 24 * vol <= o' -> m' b' o' = m b' o').
Proof.
  intros R o threads s l0 vol kb d x y a b ia m D X Y cs HT Hs HP Kd Kx Ky HD HX HY.
  destruct (subset_sites _ _ _ _ _ Hs HT HP) as [N I]. destruct Hs as [_ [_ Hvol]].
  rewrite field_words in HD, HX, HY.
  destruct (statement4 R o kb d x y a b ia vol m _ _ _ cs Kd Kx Ky HD HX HY N) as [m' [E1 [E2 E3]]].
  { intros i Hi. apply Hvol, I, Hi. }
  assert (W : forall i j, i < vol -> j < 24 ->
     m' d (24 * i + j) = Some (if isin i (visited cs) then fword (meaning (arith_of R) o a b ia (D i) (X i) (Y i)) j else fword (D i) j)).
  { intros i j Hi Hj. specialize (E2 (24 * i + j) ltac:(lia)). cbn [Nat.add] in E2. cbn beta in E2. rewrite E2. f_equal.
    assert (Q : (24 * i + j) / 24 = i).
    { rewrite (Nat.mul_comm 24), Nat.div_add_l, Nat.div_small, Nat.add_0_r by lia. reflexivity. }
    assert (Q' : (24 * i + j) mod 24 = j).
    { rewrite Nat.add_comm, (Nat.mul_comm 24), Nat.mod_add, Nat.mod_small by lia. reflexivity. }
    unfold field_word. rewrite Q, Q'. rewrite meaning_word. reflexivity. }
  exists m'. split; [exact E1|]. split; [|split; [|exact E3]].
  - intros i Hi H. rewrite ferm_words. intros j Hj. rewrite (W i j Hi Hj). apply I in H. apply isin_in in H. now rewrite H.
  - intros i Hi H. rewrite ferm_words. intros j Hj. rewrite (W i j Hi Hj).
    destruct (isin i (visited cs)) eqn:Q; [exfalso; apply H, I, isin_in, Q|reflexivity].
Qed.

(** norm2(x,s), innerProduct(x,y,s), innerProductReal(x,y,s): the sum over the sites of the
    subset - if it is not norm2 over an ordered subset with fewer sites than threads. *)
Theorem C102_sum : forall (R : cring) r s threads rb tb x y c vol (m : mem R) X Y cs,
  0 < threads ->
  (forall a b, s = Ordered a b -> r = Norm2 -> Permutation cs (dispatch threads (S b - a)) /\ threads <= S b - a) ->
  (forall i, In i (sites s) -> i < vol) ->
  x <> rb -> x <> tb -> y <> tb ->
  field_at m x vol X -> field_at m y vol Y ->
  c < parts r ->
  (forall j, j < threads -> m rb j <> None) -> (forall j, j < parts r -> m tb j <> None) ->
  reduce4 (arith_of R) r s threads rb tb x y c cs m =
    Some (sum_over (arith_of R) (sites s) (fun i => site_part (arith_of R) r (X i) (Y i) c)).
Proof.
  intros R r s threads rb tb x y c vol m X Y cs HT Hs Hvol Nx Tx Ty HX HY Hc Hrb Htb.
  destruct s as [a b|tab].
  - cbn [sites] in *.
    assert (Hv : forall i, a <= i <= b -> i < vol) by (intros i Hi; apply Hvol, in_seq; lia).
    rewrite <- (total_over R (S b - a) a (fun i => site_part (arith_of R) r (X i) (Y i) c)).
    assert (CR : {r = Norm2} + {r <> Norm2}) by (destruct r; [left|right|right]; congruence).
    destruct CR as [->|Hr].
    + destruct (Hs a b eq_refl eq_refl) as [HP Hn].
      set (old := fun i => match m rb i with Some v => v | None => c0 R end).
      rewrite (ordered_norm R a b threads rb tb x y c vol m X old cs HT HP Hv Nx HX).
      * replace (threads - (S b - a)) with 0 by lia. cbn [total]. f_equal. cbn [site_part].
        generalize (total (arith_of R) (S b - a) (fun i => site_norm (arith_of R) (X (a + i)))).
        intros u. cbn. pose proof (claw R) as L. destruct L as [L1 L2 _ _ _ _ _ _ _]. rewrite L2. apply L1.
      * intros i Hi. unfold old. specialize (Hrb _ Hi).
        destruct (m rb i); [reflexivity|contradiction Hrb; reflexivity].
    + exact (ordered_inner R r a b threads rb tb x y c vol m X Y cs Hr Hv HX HY Hc Htb).
  - apply (listed_value4 R r tab threads rb tb x y c vol m X Y cs); assumption.
Qed.

(** The same for arrays of fields ([l]: the pairs of fields). *)
Theorem C102_array : forall (R : cring) r s vol tb c l (m : mem R) F,
  (forall i, In i (sites s) -> i < vol) -> (forall a b, s = Ordered a b -> r = Norm2 -> a <= b) ->
  c < parts r -> (forall j, j < parts r -> m tb j <> None) ->
  (forall x y, In (x, y) l -> x <> tb /\ y <> tb /\ field_at m x vol (F x) /\ field_at m y vol (F y)) ->
  reduce_array4 (arith_of R) r s tb c l m =
    Some (fold_right (fun p t => a_add (arith_of R)
      (sum_over (arith_of R) (sites s) (fun i => site_part (arith_of R) r (F (fst p) i) (F (snd p) i) c)) t)
      (a_ofZ (arith_of R) 0) l).
Proof. intros R r s vol tb c l m F. exact (array_value4 R r s vol tb c l m F). Qed.

(** With more threads than sites norm2 over an ordered subset adds what earlier sums left in
    the results of the threads that have no site. *)
Theorem C102_idle_threads : forall (R : cring) a b threads rb tb x y c vol (m : mem R) X old cs,
  0 < threads -> Permutation cs (dispatch threads (S b - a)) ->
  (forall i, a <= i <= b -> i < vol) -> x <> rb -> field_at m x vol X ->
  (forall i, i < threads -> m rb i = Some (old i)) ->
  reduce4 (arith_of R) Norm2 (Ordered a b) threads rb tb x y c cs m =
    Some (a_add (arith_of R)
      (sum_over (arith_of R) (seq a (S b - a)) (fun i => site_norm (arith_of R) (X i)))
      (total (arith_of R) (threads - (S b - a)) (fun j => old (S b - a + j)))).
Proof.
  intros R a b threads rb tb x y c vol m X old cs HT HP Hv Nx HX Ho.
  rewrite (ordered_norm R a b threads rb tb x y c vol m X old cs HT HP Hv Nx HX Ho).
  rewrite <- (total_over R (S b - a) a (fun i => site_norm (arith_of R) (X i))). reflexivity.
Qed.

(** norm2 over both sites of [bmem] with two threads, then norm2 over site 0 alone. *)
Definition second_norm4 : option Z :=
  match norm_chunks Zar 2 0 0 (dispatch 2 2) bmem with
  | Some m1 => reduce4 Zar Norm2 (Ordered 0 0) 2 2 3 0 0 0 (dispatch 2 1) m1
  | None => None
  end.

(** The second sum includes the norm of site 1. *)
Theorem C102_idle_threads_refuted :
  reduce4 Zar Norm2 (Ordered 0 1) 2 2 3 0 0 0 (dispatch 2 2) bmem =
    Some (sum_over Zar [0; 1] (fun i => site_norm Zar (bfield 0 i))) /\
  second_norm4 = Some (site_norm Zar (bfield 0 0) + site_norm Zar (bfield 0 1))%Z /\
  second_norm4 <> Some (site_norm Zar (bfield 0 0)).
Proof. split; [vm_compute; reflexivity|]. split; [vm_compute; reflexivity|vm_compute; discriminate]. Qed.

(** ** The hypotheses are met *)
Definition cmem (b o : nat) : option Z :=
  if (b <? 2) && (o <? 54) then Some (bword b o) else None.

Example C102_copy_case :
  match evaluate_copy4 Zar OpSub (Ordered 0 2) 1 0 cmem with
  | Some m' => m' 1 5 = Some (bword 1 5 - bword 0 5)%Z /\ m' 1 53 = Some (bword 1 53 - bword 0 53)%Z
  | None => False
  end /\
  match evaluate_copy4 Zar OpAdd (Listed [1]) 1 0 cmem with
  | Some m' => m' 1 17 = Some (bword 1 17) /\ m' 1 18 = Some (bword 1 18 + bword 0 18)%Z
  | None => False
  end /\ evaluate_copy4 Zar OpAdd (Ordered 1 1) 1 0 cmem = None.
Proof. vm_compute. repeat split; reflexivity. Qed.

Example C102_statement_case :
  match evaluate_vop4 Zar AXminusBY 4 1 0 1 3%Z 2%Z 0%Z (calls 2 (Ordered 0 1)) bmem with
  | Some m' => m' 1 5 = Some (3 * bword 0 5 - 2 * bword 1 5)%Z /\ m' 1 47 = Some (3 * bword 0 47 - 2 * bword 1 47)%Z
  | None => False
  end.
Proof. vm_compute. split; reflexivity. Qed.

Example C102_sum_case :
  reduce4 Zar Inner (Ordered 0 1) 2 2 3 0 1 1 [] bmem =
    Some (sum_over Zar [0; 1] (fun i => site_part Zar Inner (bfield 0 i) (bfield 1 i) 1)) /\
  reduce4 Zar Inner (Ordered 0 1) 2 2 3 0 1 1 [] bmem <> Some 0%Z /\
  reduce4 Zar InnerReal (Listed [1]) 2 2 3 0 1 0 [] bmem =
    Some (site_part Zar InnerReal (bfield 0 1) (bfield 1 1) 0).
Proof. split; [vm_compute; reflexivity|]. split; [vm_compute; discriminate|vm_compute; reflexivity]. Qed.

Example C102_array_case :
  reduce_array4 Zar Norm2 (Ordered 0 1) 3 0 [(0, 0); (1, 1)] bmem =
    Some (sum_over Zar [0; 1]%nat (fun i => site_norm Zar (bfield 0 i)) + sum_over Zar [0; 1]%nat (fun i => site_norm Zar (bfield 1 i)))%Z.
Proof. vm_compute. reflexivity. Qed.

Print Assumptions C102_copy.
Print Assumptions C102_copy_odd.
Print Assumptions C102_copy_refuted.
Print Assumptions C102_statement.
Print Assumptions C102_sum.
Print Assumptions C102_array.
Print Assumptions C102_idle_threads.
Print Assumptions C102_idle_threads_refuted.

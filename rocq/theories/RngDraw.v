From Coq Require Import List Arith ZArith Bool Lia Permutation Znumtheory.
From Coq Require Import ZifyBool ZifyNat Zpow_facts.
From Verif Require Import Base LayoutModel LayoutSpec LayoutProofs LayoutOk EvalModel EvalSpec EvalProofs
  RngModel RngSpec RngProofs.
Import ListNotations.
Local Open Scope Z_scope.
Ltac Zify.zify_post_hook ::= Z.div_mod_to_equations.

(** ** Streams *)

Lemma stream_0 s : stream s 0 = s mod 2 ^ 47.
Proof. unfold stream. rewrite Z.pow_0_r, Z.mul_1_r. reflexivity. Qed.

Lemma stream_add s n m : stream (stream s n) m = stream s (n + m).
Proof.
  unfold stream. rewrite Z.mul_mod_idemp_l by lia. rewrite Nat2Z.inj_add, Z.pow_add_r by lia. f_equal. ring.
Qed.

Lemma stream_range s n : 0 <= stream s n < 2 ^ 47.
Proof. unfold stream. apply Z.mod_pos_bound. lia. Qed.

Lemma smul_stream a b n : seed_ok a -> seed_ok b -> sval b = powA n ->
  seed_ok (smul a b) /\ sval (smul a b) = stream (sval a) n.
Proof.
  intros Ha Hb E. destruct (smul_val a b Ha Hb) as [O V]. split; [exact O|]. rewrite V, E.
  unfold powA, stream. apply Z.mul_mod_idemp_r. lia.
Qed.

Lemma seed_of_stream a z : seed_ok a -> sval a = z -> a = seed_of z.
Proof. intros H <-. symmetry. apply seed_of_sval, H. Qed.

Section Fill.
  Context {R : Type}.
  Variable conv : seed -> R.

  Lemma fill_random_ok n k : forall sd sk mult, seed_ok sd -> seed_ok sk -> seed_ok mult ->
    sval mult = powA n ->
    fst (fill_random conv k sd sk mult) = map (fun w => conv (seed_of (stream (sval sk) (n * w)))) (seq 0 k) /\
    seed_ok (snd (fill_random conv k sd sk mult)) /\
    sval (snd (fill_random conv k sd sk mult)) = stream (sval sd) (n * k).
  Proof.
    induction k as [|k IH]; intros sd sk mult Hsd Hsk Hm E.
    - cbn [fill_random fst snd seq map]. rewrite Nat.mul_0_r, stream_0.
      repeat split; try apply Hsd. symmetry. apply Z.mod_small, sval_range, Hsd.
    - cbn [fill_random sranf].
      destruct (smul_stream sd mult n Hsd Hm E) as [O1 V1]. destruct (smul_stream sk mult n Hsk Hm E) as [O2 V2].
      specialize (IH _ _ _ O1 O2 Hm E).
      destruct (fill_random conv k (smul sd mult) (smul sk mult) mult) as [xs s'']. cbn [fst snd] in *.
      destruct IH as (I1 & I2 & I3). split; [|split; [exact I2|]].
      + cbn [seq map]. f_equal.
        * f_equal. rewrite Nat.mul_0_r, stream_0, Z.mod_small by apply sval_range, Hsk.
          symmetry. apply seed_of_sval, Hsk.
        * rewrite I1, <- seq_shift, map_map. apply map_ext. intros w. rewrite V2, stream_add. do 3 f_equal. lia.
      + rewrite I3, V1, stream_add. f_equal. lia.
  Qed.

  Lemma random_scalar_ok g k s : seed_ok s -> seed_ok (r_mult g) -> sval (r_mult g) = multiplier ->
    fst (random_scalar conv g k s) = map (fun w => conv (seed_of (scalar_number (sval s) w))) (seq 0 k) /\
    seed_ok (snd (random_scalar conv g k s)) /\
    sval (snd (random_scalar conv g k s)) = seed_after_scalar (sval s) k.
  Proof.
    intros Hs Hm E. assert (E1 : sval (r_mult g) = powA 1).
    { rewrite E. reflexivity. }
    unfold random_scalar. destruct (smul_stream s (r_mult g) 1 Hs Hm E1) as [O V].
    destruct (fill_random_ok 1 k s _ _ Hs O Hm E1) as (F1 & F2 & F3).
    split; [|split; [exact F2|]].
    - rewrite F1. apply map_ext. intros w. rewrite V, stream_add. unfold scalar_number. do 3 f_equal. lia.
    - rewrite F3. unfold seed_after_scalar. f_equal. lia.
  Qed.

  (** A generator initialised on node [q] of layout [lay]. *)
  Definition ready (lay : layout) (q : nat) (g : rng) : Prop :=
    layout_ok lay /\ Z.of_nat (volume (l_size lay)) < 2 ^ 30 /\ (q < l_nodes lay)%nat /\ initRNG lay q = Val g.

  Lemma ready_facts lay q g : ready lay q g ->
    seed_ok (r_mult g) /\ sval (r_mult g) = multiplier /\
    seed_ok (r_mult_n g) /\ sval (r_mult_n g) = powA (volume (l_size lay) + 1) /\
    length (r_latt g) = l_sites lay /\
    forall i, (i < l_sites lay)%nat ->
      seed_ok (nth i (r_latt g) (mkSeed 0 0 0 0)) /\
      sval (nth i (r_latt g) (mkSeed 0 0 0 0)) = powA (lexnum (l_size lay) (l_coord lay q i) + 1).
  Proof.
    intros (Hl & Hv & Hq & E). destruct (initRNG_ok lay q Hl Hv Hq) as (g' & E' & F).
    rewrite E in E'. injection E' as <-. exact F.
  Qed.

  Lemma site_fill_ok lay q g k s i : ready lay q g -> seed_ok s -> (i < l_sites lay)%nat ->
    fst (site_fill conv g k s i)
      = map (fun w => conv (seed_of (lattice_number (l_size lay) (sval s) (l_coord lay q i) w))) (seq 0 k) /\
    seed_ok (snd (site_fill conv g k s i)) /\
    sval (snd (site_fill conv g k s i)) = seed_after_lattice (l_size lay) (sval s) k.
  Proof.
    intros Hr Hs Hi. destruct (ready_facts _ _ _ Hr) as (_ & _ & MO & MV & _ & Hsite).
    destruct (Hsite i Hi) as [SO SV]. unfold site_fill.
    destruct (smul_stream s _ _ Hs SO SV) as [O V].
    destruct (fill_random_ok _ k s _ _ Hs O MO MV) as (F1 & F2 & F3).
    split; [|split; [exact F2|exact F3]].
    rewrite F1. apply map_ext. intros w. rewrite V, stream_add. reflexivity.
  Qed.

  Lemma thread_seed_ok lay q g k tab s iters s' : ready lay q g -> seed_ok s ->
    (forall j, In j iters -> (nth j tab 0 < l_sites lay)%nat) ->
    thread_seed conv g k tab s iters = Some s' ->
    s' = seed_of (seed_after_lattice (l_size lay) (sval s) k).
  Proof.
    intros Hr Hs Hi. unfold thread_seed. destruct (rev iters) as [|j l] eqn:E; [discriminate|].
    intros H. injection H as <-.
    assert (Hj : In j iters) by (rewrite in_rev, E; left; reflexivity).
    destruct (site_fill_ok lay q g k s (nth j tab 0%nat) Hr Hs (Hi j Hj)) as (_ & O & V).
    apply seed_of_stream; assumption.
  Qed.

  Lemma last_writer {A} (skip : nat -> bool) (f : nat -> res A) order : forall a,
    (forall t, In t order -> skip t = true) /\ fold_left (fun acc t => if skip t then acc else f t) order a = a \/
    exists t, In t order /\ skip t = false /\ fold_left (fun acc t => if skip t then acc else f t) order a = f t.
  Proof.
    induction order as [|t order IH]; intros a; cbn [fold_left].
    - left. split; [intros t []|reflexivity].
    - destruct (IH (if skip t then a else f t)) as [[Hs E]|(u & Hu & Hsu & E)].
      + destruct (skip t) eqn:St.
        * left. split; [intros u [<-|Hu]; auto|exact E].
        * right. exists t. split; [left; reflexivity|]. split; [exact St|exact E].
      + right. exists u. split; [right; exact Hu|]. split; assumption.
  Qed.

  Lemma chunk_iters (tab : list nat) chunks t j : Permutation (concat chunks) (seq 0 (length tab)) ->
    In j (nth t chunks []) -> (j < length tab)%nat.
  Proof.
    intros P Hj. assert (In j (concat chunks)).
    { apply in_concat. exists (nth t chunks []). split; [|exact Hj].
      destruct (Nat.lt_ge_cases t (length chunks)) as [H|H]; [apply nth_In, H|].
      rewrite nth_overflow in Hj by exact H. destruct Hj. }
    apply (Permutation_in _ P) in H. apply in_seq in H. lia.
  Qed.

  (** Whatever the schedule, a defined final seed is the right one; the only exception is the
      guarded version on an empty table, which keeps the seed. *)
  Lemma write_back_ok lay q guard g k tab s chunks order s' : ready lay q g -> seed_ok s ->
    (forall i, In i tab -> (i < l_sites lay)%nat) ->
    chunks <> [] -> Permutation (concat chunks) (seq 0 (length tab)) ->
    Permutation order (seq 0 (length chunks)) ->
    write_back conv guard g k tab s chunks order = Val s' ->
    (guard = true /\ tab = [] /\ s' = s) \/
    (tab <> [] /\ s' = seed_of (seed_after_lattice (l_size lay) (sval s) k)).
  Proof.
    intros Hr Hs Ht Hc P Po. unfold write_back.
    destruct (last_writer (fun t => guard && (length tab <=? t)%nat)
                (fun t => of_option (thread_seed conv g k tab s (nth t chunks []))) order (Val s))
      as [[Hs' E]|(t & Hto & Hst & E)]; rewrite E; intros H.
    - injection H as <-. left.
      assert (H0 : In 0%nat order).
      { apply (Permutation_in (l := seq 0 (length chunks))); [symmetry; exact Po|]. apply in_seq.
        destruct chunks; [contradiction|]. cbn [length]. lia. }
      specialize (Hs' 0%nat H0). apply andb_true_iff in Hs' as [G0 L0]. split; [exact G0|].
      split; [|reflexivity]. destruct tab; [reflexivity|]. discriminate.
    - right. destruct (thread_seed conv g k tab s (nth t chunks [])) as [s1|] eqn:T; cbn [of_option] in H;
        [injection H as ->|discriminate].
      split.
      + intros ->. cbn [length seq] in P. apply Permutation_sym, Permutation_nil in P.
        unfold thread_seed in T. destruct (rev (nth t chunks [])) as [|j l] eqn:Rv; [discriminate|].
        assert (Hj : In j (nth t chunks [])) by (rewrite in_rev, Rv; left; reflexivity).
        assert (Hj' : In j (concat chunks)).
        { apply in_concat. exists (nth t chunks []). split; [|exact Hj].
          destruct (Nat.lt_ge_cases t (length chunks)) as [K|K]; [apply nth_In, K|].
          rewrite nth_overflow in Hj by exact K. destruct Hj. }
        rewrite P in Hj'. destruct Hj'.
      + eapply thread_seed_ok; [exact Hr|exact Hs| |exact T].
        intros j Hj. apply Ht, nth_In. eapply chunk_iters; eassumption.
  Qed.

  (** If every thread that writes back has run an iteration, the final seed is defined. *)
  Lemma write_back_defined guard g k tab s chunks order :
    (forall t, (t < length chunks)%nat -> (guard = true -> (t < length tab)%nat) -> nth t chunks [] <> []) ->
    Permutation order (seq 0 (length chunks)) ->
    exists s', write_back conv guard g k tab s chunks order = Val s'.
  Proof.
    intros Hw Po. unfold write_back.
    destruct (last_writer (fun t => guard && (length tab <=? t)%nat)
                (fun t => of_option (thread_seed conv g k tab s (nth t chunks []))) order (Val s))
      as [[Hs' E]|(t & Hto & Hst & E)]; rewrite E; [eexists; reflexivity|].
    apply (Permutation_in _ Po), in_seq in Hto.
    assert (Hn : nth t chunks [] <> []).
    { apply Hw; [lia|]. intros ->. cbn [andb] in Hst. lia. }
    unfold thread_seed. destruct (rev (nth t chunks [])) as [|j l] eqn:Rv; [|eexists; reflexivity].
    contradiction Hn. rewrite <- (rev_involutive (nth t chunks [])), Rv. reflexivity.
  Qed.

  (** If a thread has run no iteration and writes back last, the seed is undefined. *)
  Lemma write_back_undefined g k tab s chunks t : (t < length chunks)%nat -> nth t chunks [] = [] ->
    exists order, Permutation order (seq 0 (length chunks)) /\
      write_back conv false g k tab s chunks order = Undef.
  Proof.
    intros Ht E.
    exists (filter (fun x => negb (x =? t)%nat) (seq 0 (length chunks)) ++ [t]). split.
    - apply NoDup_Permutation.
      + assert (N : NoDup (filter (fun x => negb (x =? t)%nat) (seq 0 (length chunks)))) by apply NoDup_filter, seq_NoDup.
        rewrite <- (rev_involutive (_ ++ [t])). apply NoDup_rev. rewrite rev_app_distr. cbn [rev app].
        constructor; [rewrite <- in_rev, filter_In; intros [_ K]; lia|]. apply NoDup_rev, N.
      + apply seq_NoDup.
      + intros x. rewrite in_app_iff, filter_In, in_seq. cbn [In]. split; [intros [[H _]|[<-|[]]]; lia|].
        intros H. destruct (Nat.eq_dec x t) as [->|]; [right; left; reflexivity|left; split; [exact H|lia]].
    - unfold write_back. rewrite fold_left_app. cbn [fold_left]. rewrite E. reflexivity.
  Qed.

  Lemma more_threads_than_sites (chunks : list (list nat)) n :
    Permutation (concat chunks) (seq 0 n) -> (n < length chunks)%nat ->
    exists t, (t < length chunks)%nat /\ nth t chunks [] = [].
  Proof.
    intros P H. apply Permutation_length in P. rewrite seq_length in P.
    assert (L : (length (concat chunks) < length chunks)%nat) by lia. clear P H n.
    induction chunks as [|c chunks IH]; cbn [length] in *; [lia|].
    destruct c as [|x c]; [exists 0%nat; split; [lia|reflexivity]|].
    cbn [concat] in L. rewrite app_length in L. cbn [length] in L.
    destruct IH as (t & Ht & E); [lia|]. exists (S t). split; [lia|exact E].
  Qed.
End Fill.

Section Draws.
  Context {R : Type}.
  Variable conv : seed -> R.

  (** C22 for one draw. *)
  Lemma random_run_ok lay q guard g k tab chunks order dflt d s d' r' : ready lay q g -> seed_ok s ->
    NoDup tab -> (forall i, In i tab -> (i < l_sites lay)%nat) -> (forall i, In i tab -> (i < length d)%nat) ->
    random_run conv guard g k tab chunks order dflt d s d' r' ->
    assigned_on dflt tab
      (fun i => map (fun w => conv (seed_of (lattice_number (l_size lay) (sval s) (l_coord lay q i) w))) (seq 0 k)) d d' /\
    forall s', r' = Val s' ->
      (guard = true /\ tab = [] /\ s' = s) \/
      (tab <> [] /\ s' = seed_of (seed_after_lattice (l_size lay) (sval s) k)).
  Proof.
    intros Hr Hs Hn Ht Hd (Hc & P & Po & Hrun & Er). split.
    - assert (A : assigned_on dflt tab (fun i => fst (site_fill conv g k s i)) d d').
      { apply (proj2 (C15_parfor dflt (fun _ i => fst (site_fill conv g k s i)) chunks tab d Hn Hd P)), Hrun. }
      destruct A as [Al Av]. split; [exact Al|]. intros i Hi. destruct (Av i Hi) as [A1 A2].
      split; [|exact A2]. intros Hin. rewrite (A1 Hin).
      apply (site_fill_ok conv lay q g k s i Hr Hs (Ht i Hin)).
    - intros s' E. rewrite Er in E.
      eapply write_back_ok; try eassumption.
  Qed.

  Definition wf_draw (lay : layout) (d : draw) : Prop :=
    match d with DScalar _ => True
               | DLattice _ tab => NoDup tab /\ forall i, In i tab -> (i < l_sites lay)%nat end.

  Lemma seed_of_stream_val z n : sval (seed_of (stream z n)) = stream z n.
  Proof. apply seed_of_val, stream_range. Qed.

  Lemma draws_ok lay q guard g s h o s' : ready lay q g -> seed_ok s ->
    Forall (wf_draw lay) h -> Forall (fun d => match d with DLattice _ tab => tab <> [] | _ => True end) h ->
    draws conv guard g s h o s' ->
    expected conv (l_size lay) (l_coord lay q) (sval s) h o /\
    seed_ok s' /\ sval s' = stream (sval s) (offset (l_size lay) h (length h)).
  Proof.
    intros Hr Hs Hw Hne H. destruct (ready_facts _ _ _ Hr) as (MO & MV & _).
    induction H as [s|s k ws s1 h o s' E H IH|s k tab chunks order dflt d d' s1 h o s' Hd Hrun H IH].
    - split; [exact I|]. split; [exact Hs|]. unfold offset. cbn [firstn map list_sum fold_right length].
      rewrite stream_0, Z.mod_small by apply sval_range, Hs. reflexivity.
    - inversion Hw; inversion Hne; subst.
      destruct (random_scalar_ok conv g k s Hs MO MV) as (F1 & F2 & F3). rewrite E in F1, F2, F3. cbn [fst snd] in *.
      destruct IH as (I1 & I2 & I3); try assumption. cbn [expected]. rewrite <- F3.
      split; [split; assumption|]. split; [exact I2|]. rewrite I3, F3. unfold seed_after_scalar.
      rewrite stream_add. reflexivity.
    - inversion Hw as [|? ? Hwd Hw']; inversion Hne as [|? ? Htab Hne']; subst. destruct Hwd as [Hnd Hin].
      destruct (random_run_ok lay q guard g k tab chunks order dflt d s d' _ Hr Hs Hnd Hin Hd Hrun) as [[Al Av] Hseed].
      destruct (Hseed s1 eq_refl) as [(_ & K & _)|[_ K]]; [contradiction|].
      assert (O1 : seed_ok s1) by (rewrite K; apply seed_of_ok).
      assert (V1 : sval s1 = seed_after_lattice (l_size lay) (sval s) k).
      { rewrite K. apply seed_of_stream_val. }
      destruct IH as (I1 & I2 & I3); try assumption. cbn [expected]. rewrite <- V1.
      split; [split; [|exact I1]|].
      + intros i Hi. destruct (Av i (Hd i Hi)) as [A1 _]. rewrite <- (A1 Hi).
        apply nth_error_nth'. rewrite Al. apply Hd, Hi.
      + split; [exact I2|]. rewrite I3, V1. unfold seed_after_lattice. rewrite stream_add. reflexivity.
  Qed.

  (** Agreement of two outputs on the sites drawn. *)
  Definition same_draw (d : draw) (o1 o2 : @drawn R) : Prop :=
    match d, o1, o2 with
    | DScalar _, OutScalar a, OutScalar b => a = b
    | DLattice _ tab, OutLattice f, OutLattice f' => forall i, In i tab -> nth_error f i = nth_error f' i
    | _, _, _ => False
    end.
  Fixpoint same_output (h : list draw) (o1 o2 : list (@drawn R)) : Prop :=
    match h, o1, o2 with
    | [], [], [] => True
    | d :: h', a :: o1', b :: o2' => same_draw d a b /\ same_output h' o1' o2'
    | _, _, _ => False
    end.

  (** C24: replay, whatever the schedules, including empty subsets. *)
  Lemma draws_replay lay q guard g h : ready lay q g -> Forall (wf_draw lay) h ->
    forall s o1 o2 s1 s2, seed_ok s ->
    draws conv guard g s h o1 s1 -> draws conv guard g s h o2 s2 ->
    same_output h o1 o2 /\ s1 = s2.
  Proof.
    intros Hr Hw. destruct (ready_facts _ _ _ Hr) as (MO & MV & _).
    induction Hw as [|[k|k tab] h Hd Hw IH]; intros s o1 o2 s1 s2 Hs H1 H2.
    - inversion H1; inversion H2; subst. split; [exact I|reflexivity].
    - inversion H1; inversion H2; subst.
      destruct (random_scalar_ok conv g k s Hs MO MV) as (F1 & F2 & F3).
      match goal with E1 : random_scalar conv g k s = _, E2 : random_scalar conv g k s = _ |- _ =>
        rewrite E1 in *; injection E2 as <- <- end.
      cbn [snd] in *.
      match goal with D1 : draws _ _ _ ?x _ ?a _, D2 : draws _ _ _ ?x _ ?b _ |- _ =>
        destruct (IH _ _ _ _ _ F2 D1 D2) as [I1 I2] end.
      split; [split; [reflexivity|exact I1]|exact I2].
    - destruct Hd as [Hnd Hin].
      inversion H1 as [| |? ? ? ch1 or1 df1 d1 d1' t1 ? o1' ? Hd1 R1 D1]; inversion H2 as [| |? ? ? ch2 or2 df2 d2 d2' t2 ? o2' ? Hd2 R2 D2]; subst.
      destruct (random_run_ok lay q guard g k tab _ _ _ _ _ _ _ Hr Hs Hnd Hin Hd1 R1) as [[Al1 Av1] Hs1].
      destruct (random_run_ok lay q guard g k tab _ _ _ _ _ _ _ Hr Hs Hnd Hin Hd2 R2) as [[Al2 Av2] Hs2].
      assert (Et : t1 = t2 /\ seed_ok t1).
      { destruct (Hs1 t1 eq_refl) as [(A1 & A2 & A3)|[A2 A3]]; destruct (Hs2 t2 eq_refl) as [(B1 & B2 & B3)|[B2 B3]];
          try contradiction; subst.
        - split; [reflexivity|exact Hs].
        - split; [reflexivity|apply seed_of_ok]. }
      destruct Et as [<- Ot].
      destruct (IH _ _ _ _ _ Ot D1 D2) as [I1 I2].
      split; [split; [|exact I1]|exact I2].
      intros i Hi. rewrite (nth_error_nth' d1' df1) by (rewrite Al1; apply Hd1, Hi).
      rewrite (nth_error_nth' d2' df2) by (rewrite Al2; apply Hd2, Hi).
      f_equal. rewrite (proj1 (Av1 i (Hd1 i Hi)) Hi), (proj1 (Av2 i (Hd2 i Hi)) Hi). reflexivity.
  Qed.
End Draws.

(** gaussian: both random fields are the expected ones. *)
Lemma gaussian_run_ok {R} (conv : seed -> R) gauss lay q guard g k tab dflt d s d' s' : ready lay q g -> seed_ok s ->
  NoDup tab -> tab <> [] -> (forall i, In i tab -> (i < l_sites lay)%nat) -> (forall i, In i tab -> (i < length d)%nat) ->
  gaussian_run conv gauss guard g k tab dflt d s d' s' ->
  assigned_on dflt tab
    (fun i => gauss
       (map (fun w => conv (seed_of (lattice_number (l_size lay) (sval s) (l_coord lay q i) w))) (seq 0 k))
       (map (fun w => conv (seed_of (lattice_number (l_size lay) (seed_after_lattice (l_size lay) (sval s) k)
                                                    (l_coord lay q i) w))) (seq 0 k))) d d' /\
  sval s' = seed_after_lattice (l_size lay) (seed_after_lattice (l_size lay) (sval s) k) k.
Proof.
  intros Hr Hs Hn Hne Ht Hd (ch1 & o1 & ch2 & o2 & ch3 & r1 & r2 & r1' & r2' & s1 & L1 & L2 & R1 & R2 & P & Hrun).
  destruct (random_run_ok conv lay q guard g k tab _ _ _ _ _ _ _ Hr Hs Hn Ht ltac:(intros i Hi; rewrite L1; auto) R1) as [[Al1 Av1] S1].
  destruct (S1 s1 eq_refl) as [(_ & K & _)|[_ K]]; [contradiction|].
  assert (O1 : seed_ok s1) by (rewrite K; apply seed_of_ok).
  assert (V1 : sval s1 = seed_after_lattice (l_size lay) (sval s) k) by (rewrite K; apply seed_of_stream_val).
  destruct (random_run_ok conv lay q guard g k tab _ _ _ _ _ _ _ Hr O1 Hn Ht ltac:(intros i Hi; rewrite L2; auto) R2) as [[Al2 Av2] S2].
  destruct (S2 s' eq_refl) as [(_ & K2 & _)|[_ K2]]; [contradiction|].
  split.
  - destruct (proj2 (C15_parfor dflt (fun _ i => gauss (nth i r1' dflt) (nth i r2' dflt)) ch3 tab d Hn Hd P) d' Hrun) as [Al Av].
    split; [exact Al|]. intros i Hi. destruct (Av i Hi) as [A1 A2]. split; [|exact A2].
    intros Hin. rewrite (A1 Hin).
    rewrite (proj1 (Av1 i ltac:(rewrite L1; exact Hi)) Hin), (proj1 (Av2 i ltac:(rewrite L2; exact Hi)) Hin), V1. reflexivity.
  - rewrite K2, V1. apply seed_of_stream_val.
Qed.

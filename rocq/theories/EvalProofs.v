(** Proofs about data-parallel loops. *)
From Coq Require Import List Arith ZArith Bool Lia Permutation.
From Coq Require Import ZifyBool ZifyNat.
From Verif Require Import Base LayoutModel LayoutSpec LayoutProofs SetModel SetProofs EvalModel EvalSpec.
Import ListNotations.
Local Open Scope nat_scope.
Ltac Zify.zify_post_hook ::= Z.div_mod_to_equations.

(** ** set_nth *)
Lemma set_nth_length {T} (v : T) m : forall i, length (set_nth i v m) = length m.
Proof. induction m as [|x m IH]; intros [|i]; cbn; auto. Qed.
Lemma set_nth_eq {T} (v d : T) m : forall i, i < length m -> nth i (set_nth i v m) d = v.
Proof. induction m as [|x m IH]; intros [|i]; cbn; intros; auto; try lia; apply IH; lia. Qed.
Lemma set_nth_ne {T} (v d : T) m : forall i k, i <> k -> nth k (set_nth i v m) d = nth k m d.
Proof.
  induction m as [|x m IH]; intros [|i] [|k]; cbn; intros; auto; try lia; apply IH; lia.
Qed.

(** ** dispatch *)
Lemma mul_div_mono n a k : 0 < a -> (n * k) / a <= (n * (k + 1)) / a.
Proof. intros. apply Nat.div_le_mono; lia. Qed.

Definition cut (n a k : nat) : nat := (n * k) / a.

Lemma cut_mono n a k k' : 0 < a -> k <= k' -> cut n a k <= cut n a k'.
Proof. intros Ha H. unfold cut. apply Nat.div_le_mono; [lia|]. apply Nat.mul_le_mono_l. exact H. Qed.

Lemma cut_0 n a : 0 < a -> cut n a 0 = 0.
Proof. intros. unfold cut. rewrite Nat.mul_0_r. apply Nat.div_0_l. lia. Qed.
Lemma cut_a n a : 0 < a -> cut n a a = n.
Proof. intros. unfold cut. apply Nat.div_mul. lia. Qed.

(** The dispatched calls are those of the active threads. *)
Lemma dispatch_active T n : 0 < T ->
  dispatch T n = map (fun k => (cut n (active_threads T n) k, cut n (active_threads T n) (k + 1), k))
                     (seq 0 (active_threads T n)).
Proof.
  intros HT. unfold dispatch. set (a := active_threads T n).
  assert (Ha : a <= T /\ a = Nat.min T n).
  { subst a. unfold active_threads. destruct (n <? T) eqn:E; lia. }
  destruct Ha as [Ha Hm]. clearbody a. replace T with (a + (T - a)) at 1 by lia. rewrite seq_app, flat_map_app.
  rewrite (flat_map_concat_map _ (seq (0 + a) (T - a))).
  replace (concat (map _ (seq (0 + a) (T - a)))) with (@nil (nat * nat * nat)).
  - rewrite app_nil_r. rewrite flat_map_concat_map.
    rewrite (map_ext_in _ (fun k => [(cut n a k, cut n a (k + 1), k)])).
    + generalize (seq 0 a). intros l. induction l as [|k l IH]; cbn; [reflexivity|]. f_equal. exact IH.
    + intros k Hk. apply in_seq in Hk. destruct (k <? n) eqn:E; [reflexivity|lia].
  - symmetry. destruct (Nat.eq_dec T a) as [->|HTa].
    + rewrite Nat.sub_diag. reflexivity.
    + rewrite (map_ext_in _ (fun _ => [])).
      * generalize (seq (0 + a) (T - a)). intros l. induction l; cbn; auto.
      * intros k Hk. apply in_seq in Hk. destruct (k <? n) eqn:E; [lia|reflexivity].
Qed.

Lemma concat_cuts n a : 0 < a -> forall m, m <= a ->
  concat (map (fun k => seq (cut n a k) (cut n a (k + 1) - cut n a k)) (seq 0 m)) = seq 0 (cut n a m).
Proof.
  intros Ha. induction m as [|m IH]; intros Hm.
  - cbn. rewrite cut_0 by exact Ha. reflexivity.
  - rewrite seq_S, map_app, concat_app, IH by lia. cbn [Nat.add map concat]. rewrite app_nil_r.
    pose proof (cut_mono n a m (S m) Ha ltac:(lia)) as Hmono.
    replace (m + 1) with (S m) by lia.
    replace (cut n a (S m)) with (cut n a m + (cut n a (S m) - cut n a m)) at 2 by lia.
    rewrite seq_app. reflexivity.
Qed.

Lemma dispatch_iterations T n : 0 < T -> concat (map iterations (dispatch T n)) = seq 0 n.
Proof.
  intros HT. rewrite dispatch_active by exact HT. rewrite map_map. cbn [iterations].
  destruct (Nat.eq_dec n 0) as [->|Hn].
  - unfold active_threads. destruct (0 <? T) eqn:E; [reflexivity|lia].
  - assert (Ha : 0 < active_threads T n) by (unfold active_threads; destruct (n <? T); lia).
    rewrite concat_cuts by lia. rewrite cut_a by exact Ha. reflexivity.
Qed.

Lemma C14_all T n : 0 < T -> covers_exactly n (dispatch T n).
Proof.
  intros HT. rewrite dispatch_active by exact HT. set (a := active_threads T n).
  destruct (Nat.eq_dec n 0) as [Hn|Hn].
  { assert (a = 0) by (subst a n; unfold active_threads; destruct (0 <? T) eqn:E; lia).
    rewrite H. cbn. split; [intros ? ? ? []|intros j Hj; lia]. }
  assert (Ha : 0 < a) by (subst a; unfold active_threads; destruct (n <? T); lia).
  split.
  - intros lo hi t Hin. apply in_map_iff in Hin as (k & E & Hk). apply in_seq in Hk.
    injection E as <- <- <-. split; [apply cut_mono; lia|].
    transitivity (cut n a a); [apply cut_mono; lia|rewrite cut_a; lia].
  - intros j Hj.
    assert (Hex : forall m, m <= a -> j < cut n a m -> exists k, k < m /\ cut n a k <= j < cut n a (k + 1)).
    { induction m as [|m IH]; intros Hm Hjm; [rewrite cut_0 in Hjm by exact Ha; lia|].
      destruct (Nat.lt_ge_cases j (cut n a m)) as [H|H].
      - destruct (IH ltac:(lia) H) as (k & Hk & E). exists k. split; [lia|exact E].
      - exists m. split; [lia|]. replace (m + 1) with (S m) by lia. lia. }
    destruct (Hex a ltac:(lia)) as (k & Hk & E); [rewrite cut_a; assumption|].
    exists k. split.
    + exists (cut n a k), (cut n a (k + 1)). split; [|exact E]. apply in_map_iff. exists k.
      split; [reflexivity|apply in_seq; lia].
    + intros k' (lo & hi & Hin & Hr). apply in_map_iff in Hin as (k'' & E' & Hk''). apply in_seq in Hk''.
      injection E' as <- <- <-. destruct (Nat.lt_trichotomy k k'') as [H|[H|H]]; [|exact H|].
      * pose proof (cut_mono n a (k + 1) k'' Ha ltac:(lia)). lia.
      * pose proof (cut_mono n a (k'' + 1) k Ha ltac:(lia)). lia.
Qed.

(** ** int arithmetic *)
Lemma fits_spec x : fits x = true <-> (-2147483648 <= x <= 2147483647)%Z.
Proof. unfold fits, int_min, int_max. lia. Qed.

Lemma C16_ok (threads n myId : Z) : (0 < threads)%Z -> (0 < n)%Z -> (0 <= myId < threads)%Z -> (myId < n)%Z ->
  (n * Z.min threads n <= 2147483647)%Z ->
  bounds_int threads n myId =
    Val ((n * myId) / Z.min threads n, (n * (myId + 1)) / Z.min threads n)%Z.
Proof.
  intros HT Hn Hm Hmn Hb. unfold bounds_int, imul.
  assert (Hle : (n * myId <= n * (myId + 1))%Z /\ (n * (myId + 1) <= n * Z.min threads n)%Z).
  { split; apply Z.mul_le_mono_nonneg_l; lia. }
  assert (0 <= n * myId)%Z by (apply Z.mul_nonneg_nonneg; lia).
  replace (fits (n * myId)) with true by (symmetry; apply fits_spec; lia). cbn [bind].
  replace (fits (n * (myId + 1))) with true by (symmetry; apply fits_spec; lia). cbn [bind].
  replace (if (n <? threads)%Z then n else threads) with (Z.min threads n)
    by (destruct (n <? threads)%Z eqn:E; lia).
  rewrite !Z.quot_div_nonneg by lia. reflexivity.
Qed.

Lemma C16_bad (threads n : Z) : (0 < threads <= n)%Z -> (2147483647 < n * threads)%Z ->
  bounds_int threads n (threads - 1) = Undef.
Proof.
  intros HT Hb. unfold bounds_int, imul.
  destruct (fits (n * (threads - 1))); cbn [bind]; [|reflexivity].
  replace (threads - 1 + 1)%Z with threads by lia.
  destruct (fits (n * threads)) eqn:E; [|reflexivity]. apply fits_spec in E. lia.
Qed.

(** ** Interleaved loops *)
Section LoopProofs.
  Context {T : Type} (d : T) (loc : nat -> nat) (rhs : list T -> nat -> T).
  Variable m0 : list T.
  Variable js : list nat.
  Hypothesis Hnd : NoDup (map loc js).
  Hypothesis Hin : forall j, In j js -> loc j < length m0.
  Hypothesis Hloc : forall m m' j, In j js -> nth (loc j) m d = nth (loc j) m' d -> rhs m j = rhs m' j.

  Definition sites (t : @thr T) : list nat :=
    match pend t with Some (j, _) => j :: todo t | None => todo t end.

  Definition linv (s : list T * list thr) : Prop :=
    length (fst s) = length m0 /\
    (forall t j v, In t (snd s) -> pend t = Some (j, v) -> v = rhs m0 j) /\
    exists D, Permutation (D ++ flat_map sites (snd s)) js /\
      (forall j, In j D -> nth (loc j) (fst s) d = rhs m0 j) /\
      (forall i, (forall j, In j D -> loc j <> i) -> nth i (fst s) d = nth i m0 d).

  Lemma nodup_disjoint D j R : Permutation (D ++ j :: R) js -> forall k, In k D -> loc k <> loc j.
  Proof.
    intros HP k Hk E. assert (N : NoDup (map loc (D ++ j :: R))).
    { eapply Permutation_NoDup; [|exact Hnd]. apply Permutation_map. symmetry. exact HP. }
    rewrite map_app in N. cbn [map] in N. apply NoDup_remove in N as [_ N]. apply N.
    apply in_or_app. left. rewrite <- E. apply in_map. exact Hk.
  Qed.

  Lemma linv_step s s' : linv s -> lstep loc rhs s s' -> linv s'.
  Proof.
    intros (HL & HP & D & HD & Hdone & Hrest) Hs. destruct Hs as [m a j r b|m a j v r b]; cbn [fst snd] in *.
    - assert (Hperm : Permutation (D ++ j :: (flat_map sites a ++ r ++ flat_map sites b)) js).
      { rewrite <- HD. rewrite flat_map_app. cbn [flat_map sites todo pend].
        apply Permutation_app_head. cbn [app]. apply Permutation_middle. }
      assert (Hj : In j js).
      { eapply Permutation_in; [exact Hperm|]. apply in_or_app. right. left. reflexivity. }
      split; [exact HL|]. split.
      + intros t j' v' Ht E. apply in_app_or in Ht as [Ht|[<-|Ht]].
        * apply (HP t j' v'); [apply in_or_app; left; exact Ht|exact E].
        * cbn in E. injection E as <- <-. apply Hloc; [exact Hj|]. apply Hrest.
          apply (nodup_disjoint _ _ _ Hperm).
        * apply (HP t j' v'); [apply in_or_app; right; right; exact Ht|exact E].
      + exists D. cbn [fst snd]. split; [|split; assumption]. rewrite <- HD. rewrite !flat_map_app.
        cbn [flat_map sites todo pend]. reflexivity.
    - assert (Hperm : Permutation (D ++ j :: (flat_map sites a ++ r ++ flat_map sites b)) js).
      { rewrite <- HD. rewrite flat_map_app. cbn [flat_map sites todo pend].
        apply Permutation_app_head. cbn [app]. apply Permutation_middle. }
      assert (Hj : In j js).
      { eapply Permutation_in; [exact Hperm|]. apply in_or_app. right. left. reflexivity. }
      assert (Ev : v = rhs m0 j).
      { apply (HP {| todo := r; pend := Some (j, v) |}); [|reflexivity].
        apply in_or_app. right. left. reflexivity. }
      split; [cbn [fst]; rewrite set_nth_length; exact HL|]. split.
      + intros t j' v' Ht E. apply in_app_or in Ht as [Ht|[<-|Ht]].
        * apply (HP t j' v'); [apply in_or_app; left; exact Ht|exact E].
        * discriminate.
        * apply (HP t j' v'); [apply in_or_app; right; right; exact Ht|exact E].
      + exists (j :: D). cbn [fst snd]. split; [|split].
        * rewrite flat_map_app. cbn [flat_map sites todo pend app].
          rewrite <- Hperm. apply Permutation_middle.
        * intros k [<-|Hk].
          -- rewrite set_nth_eq; [exact Ev|]. rewrite HL. apply Hin. exact Hj.
          -- rewrite set_nth_ne; [apply Hdone; exact Hk|].
             intros E. apply (nodup_disjoint _ _ _ Hperm k Hk). auto.
        * intros i Hi. rewrite set_nth_ne by (apply Hi; left; reflexivity).
          apply Hrest. intros k Hk. apply Hi. right. exact Hk.
  Qed.

  Lemma linv_steps s s' : linv s -> lsteps loc rhs s s' -> linv s'.
  Proof. intros H Hs. revert H. induction Hs; auto. intros. apply IHHs. eapply linv_step; eauto. Qed.

  Lemma flat_start chunks : flat_map sites (start chunks) = concat chunks.
  Proof.
    unfold start. induction chunks as [|c chunks IH]; [reflexivity|]. cbn [map flat_map concat].
    rewrite IH. reflexivity.
  Qed.

  Lemma flat_finished ts : finished ts -> flat_map sites ts = [].
  Proof.
    induction 1 as [|t ts [A B] _ IH]; [reflexivity|]. cbn [flat_map]. rewrite IH. unfold sites.
    rewrite B, A. reflexivity.
  Qed.

  Lemma loop_result chunks m' : Permutation (concat chunks) js -> loop_run loc rhs chunks m0 m' ->
    length m' = length m0 /\
    (forall j, In j js -> nth (loc j) m' d = rhs m0 j) /\
    (forall i, ~ In i (map loc js) -> nth i m' d = nth i m0 d).
  Proof.
    intros HC (ts & Hs & Hf). apply linv_steps in Hs.
    - destruct Hs as (HL & _ & D & HD & Hdone & Hrest). cbn [fst snd] in *.
      rewrite (flat_finished ts Hf), app_nil_r in HD. split; [exact HL|]. split.
      + intros j Hj. apply Hdone. eapply Permutation_in; [symmetry; exact HD|exact Hj].
      + intros i Hi. apply Hrest. intros j Hj E. apply Hi. rewrite <- E. apply in_map.
        eapply Permutation_in; [exact HD|exact Hj].
    - split; [reflexivity|]. split.
      + intros t j v Ht E. cbn [fst snd] in *. unfold start in Ht. apply in_map_iff in Ht as (c & <- & _).
        discriminate.
      + exists []. cbn [app fst snd]. rewrite flat_start. split; [exact HC|].
        split; [intros j []|reflexivity].
  Qed.
End LoopProofs.

(** Every loop can be run to completion. *)
Lemma lsteps_trans {T} loc (rhs : list T -> nat -> T) a b c :
  lsteps loc rhs a b -> lsteps loc rhs b c -> lsteps loc rhs a c.
Proof. induction 1; auto. intros. econstructor; eauto. Qed.

Lemma loop_terminates {T} loc (rhs : list T -> nat -> T) chunks : forall m,
  loop_run loc rhs chunks m (loop_seq loc rhs (concat chunks) m).
Proof.
  assert (G : forall chunks pre, finished pre -> forall m, exists ts,
     lsteps loc rhs (m, pre ++ start chunks) (loop_seq loc rhs (concat chunks) m, ts) /\ finished ts).
  { clear. induction chunks as [|c chunks IH]; intros pre Hpre m.
    - exists pre. cbn. rewrite app_nil_r. split; [constructor|exact Hpre].
    - assert (C : forall c m, lsteps loc rhs (m, pre ++ {| todo := c; pend := None |} :: start chunks)
                 (loop_seq loc rhs c m, pre ++ {| todo := []; pend := None |} :: start chunks)).
      { clear. induction c as [|j c IHc]; intros m; [constructor|].
        eapply lsteps_step; [apply step_load|]. eapply lsteps_step; [apply step_store|]. apply IHc. }
      assert (E : loop_seq loc rhs (concat (c :: chunks)) m
                  = loop_seq loc rhs (concat chunks) (loop_seq loc rhs c m)).
      { unfold loop_seq. cbn [concat]. apply fold_left_app. }
      destruct (IH (pre ++ [{| todo := []; pend := None |}]) ) with (m := loop_seq loc rhs c m) as (ts & A & B).
      { apply Forall_app. split; [exact Hpre|]. repeat constructor. }
      exists ts. split; [|exact B]. cbn [start map]. rewrite E. eapply lsteps_trans; [apply C|].
      rewrite <- app_assoc in A. exact A. }
  intros m. destruct (G chunks [] ltac:(constructor) m) as (ts & A & B). exists ts. split; assumption.
Qed.

(** ** evaluate *)
Lemma nth_seq_map tab n : n = length tab -> map (fun j => nth j tab 0) (seq 0 n) = tab.
Proof.
  intros ->. induction tab as [|x tab IH]; [reflexivity|]. cbn [length seq map nth]. f_equal.
  rewrite <- seq_shift, map_map. exact IH.
Qed.

Lemma assigned_gen {T} (d : T) rhs chunks tab dest dest' (val : nat -> T) :
  NoDup tab -> (forall i, In i tab -> i < length dest) ->
  assigns_once (length tab) chunks ->
  (forall m m' j, nth (nth j tab 0) m d = nth (nth j tab 0) m' d -> rhs m j = rhs m' j) ->
  (forall j, j < length tab -> rhs dest j = val (nth j tab 0)) ->
  loop_run (fun j => nth j tab 0) rhs chunks dest dest' -> assigned_on d tab val dest dest'.
Proof.
  intros Hnd Hin Hc Hl Hv Hr.
  destruct (loop_result d (fun j => nth j tab 0) rhs dest (seq 0 (length tab))) with (chunks := chunks) (m' := dest')
    as (A & B & C); auto.
  - rewrite nth_seq_map by reflexivity. exact Hnd.
  - intros j Hj. apply in_seq in Hj. apply Hin. apply nth_In. lia.
  - split; [exact A|]. intros i Hi. rewrite nth_seq_map in C by reflexivity. split.
    + intros Ht. apply In_nth with (d := 0) in Ht as (j & Hj & <-). rewrite <- Hv by exact Hj.
      apply B. apply in_seq. lia.
    + intros Ht. apply C. exact Ht.
Qed.

Lemma C15_evaluate {T T1} (d : T) (op : T -> T1 -> T) expr threads tab dest :
  NoDup tab -> (forall i, In i tab -> i < length dest) -> 0 < threads -> reads_own_site d expr ->
  (exists dest', evaluate_run op expr d threads tab dest dest') /\
  forall dest', evaluate_run op expr d threads tab dest dest' ->
    assigned_on d tab (fun i => op (nth i dest d) (expr dest i)) dest dest'.
Proof.
  intros Hnd Hin HT He. split.
  - eexists. apply loop_terminates.
  - intros dest' Hr. unfold evaluate_run in Hr. eapply assigned_gen; eauto.
    + unfold assigns_once. rewrite dispatch_iterations by exact HT. reflexivity.
    + intros m m' j E. cbv beta zeta. rewrite E. f_equal. apply He. exact E.
    + reflexivity.
Qed.

Lemma C15_parfor {T} (d : T) body chunks tab dest :
  NoDup tab -> (forall i, In i tab -> i < length dest) -> assigns_once (length tab) chunks ->
  (exists dest', parfor_run body d chunks tab dest dest') /\
  forall dest', parfor_run body d chunks tab dest dest' ->
    assigned_on d tab (fun i => body (nth i dest d) i) dest dest'.
Proof.
  intros Hnd Hin Hc. split.
  - eexists. apply loop_terminates.
  - intros dest' Hr. unfold parfor_run in Hr. eapply assigned_gen; eauto.
    + intros m m' j E. cbv beta zeta. rewrite E. reflexivity.
    + reflexivity.
Qed.

Lemma C15_evaluate_F {T T1} (d : T) (op : T -> T1 -> T) expr chunks tab dest :
  length tab <= length dest -> assigns_once (length tab) chunks ->
  (exists dest', evaluate_F_run op expr d chunks tab dest dest') /\
  forall dest', evaluate_F_run op expr d chunks tab dest dest' ->
    assigned_on d (seq 0 (length tab)) (fun j => op (nth j dest d) (expr (nth j tab 0))) dest dest'.
Proof.
  intros Hlen Hc. split; [eexists; apply loop_terminates|].
  intros dest' Hr. unfold evaluate_F_run in Hr.
  destruct (loop_result d (fun j => j) (fun m j => op (nth j m d) (expr (nth j tab 0))) dest (seq 0 (length tab)))
    with (chunks := chunks) (m' := dest') as (A & B & C); auto.
  - rewrite map_id. apply seq_NoDup.
  - intros j Hj. apply in_seq in Hj. lia.
  - intros m m' j _ E. rewrite E. reflexivity.
  - split; [exact A|]. intros i Hi. rewrite map_id in C. split; [apply B|apply C].
Qed.

(** ** Reductions *)
Section Monoid.
  Context {A : Type} {zero : A} {add : A -> A -> A}.
  Hypothesis M : comm_monoid zero add.

  Lemma zero_r a : add a zero = a.
  Proof. rewrite (cm_comm _ _ M). apply (cm_zero _ _ M). Qed.
  Lemma total_app l1 l2 : total zero add (l1 ++ l2) = add (total zero add l1) (total zero add l2).
  Proof.
    induction l1 as [|x l IH]; cbn [app total fold_right]; [symmetry; apply (cm_zero _ _ M)|].
    unfold total in *. rewrite IH. apply (cm_assoc _ _ M).
  Qed.
  Lemma total_perm l1 l2 : Permutation l1 l2 -> total zero add l1 = total zero add l2.
  Proof.
    unfold total. induction 1; cbn [fold_right]; auto.
    - congruence.
    - rewrite !(cm_assoc _ _ M). rewrite (cm_comm _ _ M y x). reflexivity.
    - congruence.
  Qed.
  Lemma fold_left_total l : forall a, fold_left add l a = add a (total zero add l).
  Proof.
    induction l as [|x l IH]; intros a; cbn [fold_left total fold_right]; [symmetry; apply zero_r|].
    rewrite IH. symmetry. apply (cm_assoc _ _ M).
  Qed.
  Lemma total_add {B} (f g : B -> A) l :
    total zero add (map (fun x => add (f x) (g x)) l)
    = add (total zero add (map f l)) (total zero add (map g l)).
  Proof.
    unfold total. induction l as [|x l IH]; cbn [map fold_right]; [symmetry; apply (cm_zero _ _ M)|].
    rewrite IH. rewrite !(cm_assoc _ _ M). f_equal. rewrite <- !(cm_assoc _ _ M). f_equal.
    apply (cm_comm _ _ M).
  Qed.
  Lemma total_const_zero {B} (l : list B) : total zero add (map (fun _ => zero) l) = zero.
  Proof. unfold total. induction l as [|x l IH]; cbn; [reflexivity|]. rewrite IH. apply (cm_zero _ _ M). Qed.
  Lemma total_swap {B C} (f : B -> C -> A) l1 l2 :
    total zero add (map (fun x => total zero add (map (f x) l2)) l1)
    = total zero add (map (fun y => total zero add (map (fun x => f x y) l1)) l2).
  Proof.
    induction l1 as [|x l1 IH]; cbn [map].
    - cbn [total fold_right]. symmetry. apply total_const_zero.
    - change (total zero add (?a :: ?l)) with (add a (total zero add l)). rewrite IH.
      rewrite <- total_add. reflexivity.
  Qed.
  Lemma total_concat ll : total zero add (concat ll) = total zero add (map (total zero add) ll).
  Proof.
    induction ll as [|l ll IH]; [reflexivity|]. cbn [concat map]. rewrite total_app, IH. reflexivity.
  Qed.

  Definition accs (ts : list (option A)) : A :=
    total zero add (map (fun o => match o with Some a => a | None => zero end) ts).
  Lemma accs_mid a o b : accs (a ++ o :: b) =
    add (accs a) (add (match o with Some x => x | None => zero end) (accs b)).
  Proof. unfold accs. rewrite map_app. cbn [map]. rewrite total_app. reflexivity. Qed.

  Ltac flat := unfold total; cbn [fold_right]; rewrite ?zero_r; rewrite ?(cm_assoc _ _ M); reflexivity.

  Variable val : nat -> A.
  Definition rsum (s : list nat * list (option A) * A) : A :=
    let '(p, ts, d) := s in add d (add (accs ts) (total zero add (map val p))).

  Lemma rstep_sum s s' : rstep add val s s' -> rsum s' = rsum s.
  Proof.
    intros H. destruct H as [p1 i p2 a acc b d|p a acc b d]; unfold rsum; rewrite !accs_mid.
    - rewrite !map_app. cbn [map]. rewrite !total_app.
      change (total zero add (val i :: map val p2)) with (add (val i) (total zero add (map val p2))).
      generalize (accs a) (accs b) (val i) (total zero add (map val p1)) (total zero add (map val p2)).
      intros u v w x y. f_equal.
      transitivity (total zero add [u; acc; w; v; x; y]); [flat|].
      transitivity (total zero add [u; acc; v; x; w; y]); [apply total_perm|flat].
      do 2 apply perm_skip. change [w; v; x; y] with ([w] ++ [v; x] ++ [y]).
      change [v; x; w; y] with ([v; x] ++ [w] ++ [y]). rewrite !app_assoc.
      apply Permutation_app_tail, Permutation_app_comm.
    - rewrite (cm_zero _ _ M).
      generalize (accs a) (accs b) (total zero add (map val p)). intros u v w.
      transitivity (total zero add [d; acc; u; v; w]); [flat|].
      transitivity (total zero add [d; u; acc; v; w]); [apply total_perm|flat].
      apply perm_skip, perm_swap.
  Qed.
  Lemma rsteps_sum s s' : rsteps add val s s' -> rsum s' = rsum s.
  Proof. induction 1; auto. rewrite IHrsteps. apply rstep_sum. assumption. Qed.

  Lemma accs_repeat o n : (match o with Some x => x | None => zero end) = zero -> accs (repeat o n) = zero.
  Proof.
    intros E. unfold accs. induction n as [|n IH]; cbn; [reflexivity|]. rewrite E.
    unfold total in IH. rewrite IH. apply (cm_zero _ _ M).
  Qed.

  Lemma region_sum threads iters d d' : region zero add val threads iters d d' ->
    d' = add d (total zero add (map val iters)).
  Proof.
    intros H. apply rsteps_sum in H. unfold rsum in H. cbn [map] in H.
    change (total zero add []) with zero in H.
    rewrite (accs_repeat None) in H by reflexivity. rewrite (accs_repeat (Some zero)) in H by reflexivity.
    rewrite !(cm_zero _ _ M) in H. rewrite zero_r in H. exact H.
  Qed.

End Monoid.

(** A region can always be run. *)
Lemma rsteps_trans {A} add (val : nat -> A) a b c : rsteps add val a b -> rsteps add val b c -> rsteps add val a c.
Proof. induction 1; auto. intros. econstructor; eauto. Qed.

Lemma region_exists {A} zero add (val : nat -> A) threads iters d : 0 < threads ->
  exists d', region zero add val threads iters d d'.
Proof.
  intros HT. destruct threads as [|n]; [lia|]. unfold region. cbn [repeat].
  assert (I : forall iters acc ts d, exists acc', rsteps add val (iters, Some acc :: ts, d) ([], Some acc' :: ts, d)).
  { clear. induction iters as [|i iters IH]; intros acc ts d; [exists acc; constructor|].
    destruct (IH (add acc (val i)) ts d) as (acc' & H). exists acc'.
    eapply rsteps_step; [|exact H]. apply (r_iter add val [] i iters [] acc ts d). }
  assert (Me : forall n pre d, exists d', rsteps add val ([], pre ++ repeat (Some zero) n, d) ([], pre ++ repeat None n, d')).
  { clear. induction n as [|n IH]; intros pre d; [exists d; constructor|]. cbn [repeat].
    destruct (IH (pre ++ [None]) (add d zero)) as (d' & H). exists d'. rewrite <- !app_assoc in H.
    eapply rsteps_step; [apply r_merge|]. exact H. }
  destruct (I iters zero (repeat (Some zero) n) d) as (acc & H1).
  destruct (Me n [None] (add d acc)) as (d' & H2). exists d'.
  eapply rsteps_trans; [exact H1|]. eapply rsteps_step; [|exact H2].
  apply (r_merge add val [] [] acc (repeat (Some zero) n) d).
Qed.

Lemma map_nth_seq {A} (f : nat -> A) tab : map (fun j => f (nth j tab 0)) (seq 0 (length tab)) = map f tab.
Proof. rewrite <- (map_map (fun j => nth j tab 0) f). rewrite nth_seq_map; reflexivity. Qed.

Lemma C17_sum {A} (zero : A) add expr threads tab : comm_monoid zero add -> 0 < threads ->
  (exists d, sum_run zero add expr threads tab d) /\
  forall d, sum_run zero add expr threads tab d -> d = total zero add (map expr tab).
Proof.
  intros M HT. split; [apply region_exists; exact HT|]. intros d H. apply (region_sum M) in H.
  rewrite (cm_zero _ _ M) in H. rewrite H. f_equal. apply map_nth_seq.
Qed.

Lemma regions_sum {A} (zero : A) add expr threads tab ns : comm_monoid zero add -> forall d d',
  regions zero add expr threads tab ns d d' ->
  d' = add d (total zero add (map (fun n => total zero add (map (expr n) tab)) ns)).
Proof.
  intros M. induction ns as [|n ns IH]; intros d d' H; inversion H as [|? ? ? d1 ? R1 R2]; subst.
  - cbn. symmetry. apply (zero_r M).
  - apply IH in R2. rewrite R2. apply (region_sum M) in R1. rewrite R1.
    rewrite (map_nth_seq (expr n)). cbn [map].
    change (total zero add (?a :: ?l)) with (add a (total zero add l)).
    rewrite !(cm_assoc _ _ M). reflexivity.
Qed.

Lemma regions_exists {A} (zero : A) add expr threads tab ns : 0 < threads -> forall d,
  exists d', regions zero add expr threads tab ns d d'.
Proof.
  intros HT. induction ns as [|n ns IH]; intros d; [exists d; constructor|].
  destruct (region_exists zero add (fun j => expr n (nth j tab 0)) threads (seq 0 (length tab)) d HT) as (d1 & H1).
  destruct (IH d1) as (d2 & H2). exists d2. econstructor; eauto.
Qed.

Lemma C17_array {A} (zero : A) add expr threads tab size : comm_monoid zero add -> 0 < threads ->
  (exists d, array_sum_run zero add expr threads tab size d) /\
  forall d, array_sum_run zero add expr threads tab size d ->
    d = total zero add (map (fun n => total zero add (map (expr n) tab)) (seq 0 size)).
Proof.
  intros M HT. split; [apply regions_exists; exact HT|]. intros d H. apply (regions_sum zero add _ _ _ _ M) in H.
  rewrite (cm_zero _ _ M) in H. exact H.
Qed.

(** ** sumMulti *)
Section SumMultiProofs.
  Context {A : Type} {zero : A} {add : A -> A -> A}.
  Hypothesis M : comm_monoid zero add.
  Variables (num : nat) (color : list nat) (expr : nat -> A).

  Definition csum (k : nat) (l : list nat) : A :=
    total zero add (map expr (filter (fun i => get color i =? k) l)).

  Lemma csum_app k l1 l2 : csum k (l1 ++ l2) = add (csum k l1) (csum k l2).
  Proof. unfold csum. rewrite filter_app, map_app. apply (total_app M). Qed.
  Lemma csum_concat k ll : csum k (concat ll) = total zero add (map (csum k) ll).
  Proof.
    induction ll as [|l ll IH]; [reflexivity|]. cbn [concat map]. rewrite csum_app, IH. reflexivity.
  Qed.

  Lemma kernel_length iters : forall row, length (sumMultiKernel zero add color expr row iters) = length row.
  Proof.
    unfold sumMultiKernel. induction iters as [|i iters IH]; intros row; [reflexivity|].
    cbn [fold_left]. rewrite IH. apply set_nth_length.
  Qed.

  Lemma kernel_nth k : k < num -> forall iters row, length row = num ->
    (forall i, In i iters -> get color i < num) ->
    nth k (sumMultiKernel zero add color expr row iters) zero = add (nth k row zero) (csum k iters).
  Proof.
    intros Hk. unfold sumMultiKernel, csum. induction iters as [|i iters IH]; intros row Hl Hc.
    - cbn. symmetry. apply (zero_r M).
    - cbn [fold_left]. rewrite IH.
      + cbn [filter]. destruct (get color i =? k) eqn:E.
        * apply Nat.eqb_eq in E. rewrite E. rewrite set_nth_eq by lia. cbn [map].
          symmetry. apply (cm_assoc _ _ M).
        * apply Nat.eqb_neq in E. rewrite set_nth_ne by exact E. reflexivity.
      + rewrite set_nth_length. exact Hl.
      + intros. apply Hc. right. assumption.
  Qed.

  Lemma set_nth_map_seq {B} (f : nat -> B) v n i : i < n ->
    set_nth i v (map f (seq 0 n)) = map (fun t => if t =? i then v else f t) (seq 0 n).
  Proof.
    intros Hi. apply nth_ext with (d := v) (d' := v).
    - rewrite set_nth_length, !map_length. reflexivity.
    - intros k Hk. rewrite set_nth_length, map_length, seq_length in Hk.
      assert (G : forall g : nat -> B, nth k (map g (seq 0 n)) v = g k).
      { intros g. rewrite (nth_indep _ v (g 0)) by (rewrite map_length, seq_length; exact Hk).
        rewrite map_nth. rewrite seq_nth by exact Hk. reflexivity. }
      rewrite G. destruct (Nat.eq_dec k i) as [->|Hn].
      + rewrite set_nth_eq by (rewrite map_length, seq_length; exact Hi). rewrite Nat.eqb_refl. reflexivity.
      + rewrite set_nth_ne by auto. rewrite G. destruct (k =? i) eqn:E; [lia|reflexivity].
  Qed.

  Lemma repeat_map_seq {B} (x : B) n : forall s, repeat x n = map (fun _ => x) (seq s n).
  Proof. induction n as [|n IH]; intros s; cbn [repeat seq map]; f_equal. apply IH. Qed.

  Lemma sumMulti_rows maxt a (chunk : nat -> nat * nat * nat) :
    (forall t, exists lo hi, chunk t = (lo, hi, t)) -> a <= maxt -> forall m, m <= a ->
    fold_left (fun pd call => bind pd (fun pd =>
               let '(_, _, my_id) := call in
               bind (of_option (nth_error pd my_id)) (fun row =>
               Val (set_nth my_id (sumMultiKernel zero add color expr row (iterations call)) pd))))
      (map chunk (seq 0 m)) (Val (repeat (repeat zero num) maxt))
    = Val (map (fun t => if t <? m
                         then sumMultiKernel zero add color expr (repeat zero num) (iterations (chunk t))
                         else repeat zero num) (seq 0 maxt)).
  Proof.
    intros Hch Ha. induction m as [|m IH]; intros Hm.
    - cbn [seq map fold_left]. f_equal. apply repeat_map_seq.
    - rewrite seq_S, map_app, fold_left_app, IH by lia. cbn [map fold_left Nat.add bind].
      destruct (Hch m) as (lo & hi & E). rewrite E.
      rewrite SetProofs.nth_error_map_seq. destruct (m <? maxt) eqn:E1; [|lia]. cbn [of_option bind].
      rewrite Nat.ltb_irrefl. f_equal. rewrite set_nth_map_seq by lia. apply map_ext. intros t.
      destruct (t =? m) eqn:E2.
      + apply Nat.eqb_eq in E2. subst t. destruct (m <? S m) eqn:E3; [|lia]. rewrite E. reflexivity.
      + destruct (t <? m) eqn:E3, (t <? S m) eqn:E4; try reflexivity; lia.
  Qed.

  Lemma nth_repeat_zero k n : nth k (repeat zero n) zero = zero.
  Proof. revert k. induction n; intros [|k]; cbn; auto. Qed.

  Lemma sumMulti_eq maxt threads vvol : 0 < threads <= maxt ->
    (forall i, i < vvol -> get color i < num) ->
    sumMulti zero add maxt threads num color expr vvol
    = Val (map (fun k => csum k (seq 0 vvol)) (seq 0 num)).
  Proof.
    intros HT Hc. unfold sumMulti. rewrite dispatch_active by lia.
    set (a := active_threads threads vvol).
    assert (Ha : a <= maxt) by (subst a; unfold active_threads; destruct (vvol <? threads) eqn:E; lia).
    rewrite (sumMulti_rows maxt a) by (try lia; intros t; eexists; eexists; reflexivity).
    cbn [bind].
    set (rows := map _ (seq 0 maxt)).
    assert (Hrne : rows <> []).
    { intros E. apply (f_equal (@length _)) in E. unfold rows in E. rewrite map_length, seq_length in E.
      cbn in E. lia. }
    assert (Hrows : forall k, k < num ->
       total zero add (map (fun row => nth k row zero) rows) = csum k (seq 0 vvol)).
    { intros k Hk. unfold rows. rewrite map_map.
      replace maxt with (a + (maxt - a)) by lia. rewrite seq_app, map_app, (total_app M).
      rewrite (map_ext_in _ (fun _ => zero) (seq (0 + a) (maxt - a))).
      2:{ intros t Ht. apply in_seq in Ht. destruct (t <? a) eqn:E; [lia|]. apply nth_repeat_zero. }
      rewrite (total_const_zero M), (zero_r M).
      rewrite <- (dispatch_iterations threads vvol) by lia. rewrite dispatch_active by lia. fold a.
      rewrite csum_concat, !map_map. f_equal. apply map_ext_in. intros t Ht. apply in_seq in Ht.
      destruct (t <? a) eqn:E; [|lia]. rewrite (kernel_nth k Hk).
      - rewrite nth_repeat_zero. apply (cm_zero _ _ M).
      - apply repeat_length.
      - intros i Hi. apply Hc.
        assert (In i (seq 0 vvol)).
        { rewrite <- (dispatch_iterations threads vvol) by lia. rewrite dispatch_active by lia. fold a.
          apply in_concat. eexists. split; [|exact Hi]. rewrite map_map. apply in_map_iff. exists t.
          split; [reflexivity|apply in_seq; lia]. }
        apply in_seq in H. lia. }
    clearbody rows. assert (Hne : rows <> []) by (exact Hrne). clear Hrne.
    destruct rows as [|row0 rows'].
    - congruence.
    - f_equal. apply map_ext_in. intros k Hk. apply in_seq in Hk. rewrite <- Hrows by lia. cbn [map].
      rewrite <- (map_map (fun row => nth k row zero) (fun x => x)), map_id.
      change (total zero add (?x :: ?l)) with (add x (total zero add l)).
      rewrite <- (fold_left_total M). generalize (nth k row0 zero). clear.
      induction rows' as [|r rows' IH]; intros x; [reflexivity|]. cbn [map fold_left]. apply IH.
  Qed.

  Lemma csum_all vvol : (forall i, i < vvol -> get color i < num) ->
    total zero add (map (fun k => csum k (seq 0 vvol)) (seq 0 num)) = total zero add (map expr (seq 0 vvol)).
  Proof.
    intros Hc. assert (G : forall l, (forall i, In i l -> get color i < num) ->
      total zero add (map (fun k => csum k l) (seq 0 num)) = total zero add (map expr l)).
    { induction l as [|i l IH]; intros Hl.
      - apply (total_const_zero M).
      - change (i :: l) with ([i] ++ l). rewrite (map_ext _ (fun k => add (csum k [i]) (csum k l)))
          by (intros; apply csum_app).
        rewrite (total_add M), IH by (intros; apply Hl; right; assumption). rewrite map_app, (total_app M). f_equal.
        unfold csum. cbn [filter].
        assert (Hi : get color i < num) by (apply Hl; left; reflexivity).
        replace num with (get color i + (1 + (num - get color i - 1))) by lia.
        rewrite !seq_app, !map_app, !(total_app M).
        rewrite (map_ext_in _ (fun _ => zero) (seq 0 (get color i))).
        2:{ intros k Hk. apply in_seq in Hk. destruct (get color i =? k) eqn:E; [lia|reflexivity]. }
        rewrite (map_ext_in _ (fun _ => zero) (seq (0 + get color i + 1) _)).
        2:{ intros k Hk. apply in_seq in Hk. destruct (get color i =? k) eqn:E; [lia|reflexivity]. }
        rewrite !(total_const_zero M). cbn [Nat.add seq map]. rewrite Nat.eqb_refl. cbn [map].
        rewrite (cm_zero _ _ M), (zero_r M). unfold total. cbn [fold_right]. rewrite !(zero_r M). reflexivity. }
    apply G. intros i Hi. apply in_seq in Hi. apply Hc. lia.
  Qed.

  Lemma sumMultiArray_nth (e : nat -> nat -> A) vvol size k : k < size ->
    nth_error (sumMultiArray zero add num color e vvol size) k
    = Some (sumMultiKernel zero add color (e k) (repeat zero num) (seq 0 vvol)).
  Proof.
    intros Hk. unfold sumMultiArray. rewrite SetProofs.nth_error_map_seq.
    destruct (k <? size) eqn:E; [reflexivity|lia].
  Qed.
End SumMultiProofs.

Lemma f2_length {X Y} (R : X -> Y -> Prop) l l' : Forall2 R l l' -> length l = length l'.
Proof. induction 1; cbn; auto. Qed.

Lemma lat_color_lt lay node f col i : lat_color lay node f = Val col -> i < l_sites lay ->
  get col i < sf_num f /\ length col = l_sites lay.
Proof.
  intros H Hi. apply SetProofs.mapM_Val_inv in H.
  assert (E : length col = l_sites lay).
  { rewrite <- (seq_length (l_sites lay) 0). symmetry. eapply f2_length. exact H. }
  split; [|exact E].
  assert (G : forall a s n c, Forall2 (fun a b => site_colour lay node f a = Val b) (seq s n) c -> a < n ->
            site_colour lay node f (s + a) = Val (get c a)).
  { clear. intros a s n. revert a s. induction n as [|n IH]; intros a s c H Ha; [lia|].
    cbn [seq] in H. inversion H as [|? y ? l_tail H2 H4]; subst. destruct a as [|a].
    - rewrite Nat.add_0_r. exact H2.
    - replace (s + S a) with (S s + a) by lia. apply (IH a (S s) l_tail); [assumption|lia]. }
  specialize (G i 0 _ _ H Hi). cbn [Nat.add] in G. unfold site_colour in G.
  destruct (sf_col f _) as [z| |]; try discriminate. cbn [bind] in G.
  destruct (negb _); [discriminate|]. destruct (negb _); [discriminate|].
  destruct ((z <? 0)%Z || (Z.of_nat (sf_num f) <=? z)%Z) eqn:E1; [discriminate|].
  injection G as <-. lia.
Qed.

Lemma C17_multi {A} (zero : A) add lay node f ss col expr maxt threads :
  comm_monoid zero add -> 0 < threads <= maxt ->
  set_make lay node f = Val ss -> lat_color lay node f = Val col ->
  exists r, sumMulti zero add maxt threads (sf_num f) col expr (l_sites lay) = Val r /\
    length r = length ss /\
    (forall k s, nth_error ss k = Some s -> nth_error r k = Some (total zero add (map expr (s_table s)))) /\
    total zero add r = total zero add (map expr (seq 0 (l_sites lay))).
Proof.
  intros M HT Hs Hc. apply SetProofs.set_make_inv in Hs as (col' & Hc' & ->). rewrite Hc in Hc'.
  injection Hc' as <-.
  assert (Hlt : forall i, i < l_sites lay -> get col i < sf_num f)
    by (intros i Hi; apply (lat_color_lt lay node f col i Hc Hi)).
  eexists. split; [apply (sumMulti_eq M); auto|]. split; [rewrite !map_length; reflexivity|]. split.
  - intros k s Hk. rewrite SetProofs.nth_error_map_seq in Hk. rewrite SetProofs.nth_error_map_seq.
    destruct (k <? sf_num f); [|discriminate]. injection Hk as <-.
    rewrite SetProofs.make_subset_table, SetProofs.sitetable_eq. reflexivity.
  - apply (csum_all M). exact Hlt.
Qed.

Lemma C17_multi_array {A} (zero : A) add lay node f ss col expr size :
  comm_monoid zero add -> set_make lay node f = Val ss -> lat_color lay node f = Val col ->
  forall n k s, n < size -> nth_error ss k = Some s ->
  exists row, nth_error (sumMultiArray zero add (sf_num f) col expr (l_sites lay) size) n = Some row /\
              nth_error row k = Some (total zero add (map (expr n) (s_table s))).
Proof.
  intros M Hs Hc n k s Hn Hk. apply SetProofs.set_make_inv in Hs as (col' & Hc' & ->). rewrite Hc in Hc'.
  injection Hc' as <-.
  rewrite SetProofs.nth_error_map_seq in Hk. destruct (k <? sf_num f) eqn:Ek; [|discriminate]. injection Hk as <-.
  eexists. split; [apply (sumMultiArray_nth (sf_num f) col (fun _ => zero)); exact Hn|].
  assert (Hlen : length (sumMultiKernel zero add col (expr n) (repeat zero (sf_num f)) (seq 0 (l_sites lay))) = sf_num f)
    by (rewrite kernel_length; apply repeat_length).
  rewrite (nth_error_nth' _ zero) by lia. f_equal.
  rewrite (kernel_nth M (sf_num f) col (expr n) k) by
    (try lia; try apply repeat_length; intros i Hi; apply in_seq in Hi; apply (lat_color_lt lay node f col i Hc); lia).
  rewrite nth_repeat_zero, (cm_zero _ _ M). unfold csum.
  rewrite SetProofs.make_subset_table, SetProofs.sitetable_eq. reflexivity.
Qed.

(** ** Extrema *)
Lemma globalExt_ok {A} (better : A -> A -> bool) l : total_preference better -> l <> [] ->
  exists x, globalExt better l = Val x /\ extremal better l x.
Proof.
  intros P Hl. destruct l as [|x l]; [congruence|]. cbn [globalExt]. eexists. split; [reflexivity|].
  assert (Irr : forall a, better a a = false).
  { intros a. destruct (better a a) eqn:E; [|reflexivity]. rewrite (tp_asym _ P _ _ E) in E. discriminate. }
  assert (G : forall l x, let r := fold_left (fun d dd => if better dd d then dd else d) l x in
     (r = x \/ In r l) /\ better x r = false /\ forall y, In y l -> better y r = false).
  { clear - P Irr. induction l as [|y l IH]; intros x; cbn [fold_left].
    - split; [left; reflexivity|]. split; [apply Irr|intros y []].
    - destruct (IH (if better y x then y else x)) as (A1 & A2 & A3). cbv zeta.
      set (r := fold_left _ l _) in *. split; [|split].
      + destruct A1 as [->|H]; [|right; right; exact H].
        destruct (better y x); [right; left; reflexivity|left; reflexivity].
      + destruct (better y x) eqn:E; [|exact A2].
        apply (tp_trans _ P x y r); [apply (tp_asym _ P); exact E|exact A2].
      + intros z [<-|Hz]; [|apply A3; exact Hz].
        destruct (better y x) eqn:E; [exact A2|]. apply (tp_trans _ P y x r); assumption. }
  destruct (G l x) as (A1 & A2 & A3). split.
  - destruct A1 as [->|H]; [left; reflexivity|right; exact H].
  - intros y [<-|Hy]; [exact A2|apply A3; exact Hy].
Qed.

Lemma globalExtP_ok {A} (better : A -> A -> bool) ls : total_preference better ->
  ls <> [] -> Forall (fun l => l <> []) ls ->
  exists x, globalExtP better ls = Val x /\ extremal better (concat ls) x.
Proof.
  intros P Hls Hne. unfold globalExtP.
  assert (G : exists xs, mapM (globalExt better) ls = Val xs /\ Forall2 (extremal better) ls xs).
  { clear Hls. induction Hne as [|l ls Hl _ IH]; [exists []; split; [reflexivity|constructor]|].
    destruct IH as (xs & E & F). destruct (globalExt_ok better l P Hl) as (x & E1 & F1).
    exists (x :: xs). cbn [mapM]. rewrite E1. cbn [bind]. rewrite E. cbn [bind]. split; [reflexivity|].
    constructor; assumption. }
  destruct G as (xs & E & F). rewrite E. cbn [bind].
  destruct (globalExt_ok better xs P) as (x & E1 & H1 & H2).
  { intros ->. inversion F; subst. congruence. }
  exists x. split; [exact E1|]. split.
  - clear - F H1. induction F as [|l y ls xs [Hy _] _ IH]; [destruct H1|]. cbn [concat].
    apply in_or_app. destruct H1 as [->|H1]; [left; exact Hy|right; apply IH; exact H1].
  - intros z Hz. clear - F H2 P Hz. induction F as [|l y ls xs [_ Hy] _ IH]; [destruct Hz|]. cbn [concat] in Hz.
    apply in_app_or in Hz as [Hz|Hz].
    + apply (tp_trans _ P z y x); [apply Hy; exact Hz|apply H2; left; reflexivity].
    + apply IH; [intros w Hw; apply H2; right; exact Hw|exact Hz].
Qed.

Lemma fold_or {A} (p : A -> bool) l : forall b, fold_left (fun d x => orb d (p x)) l b = orb b (existsb p l).
Proof.
  induction l as [|x l IH]; intros b; cbn [fold_left existsb]; [rewrite orb_false_r; reflexivity|].
  rewrite IH. symmetry. apply orb_assoc.
Qed.
Lemma fold_and {A} (p : A -> bool) l : forall b, fold_left (fun d x => andb d (p x)) l b = andb b (forallb p l).
Proof.
  induction l as [|x l IH]; intros b; cbn [fold_left forallb]; [rewrite andb_true_r; reflexivity|].
  rewrite IH. symmetry. apply andb_assoc.
Qed.
Lemma any_site_iff {A} (p : A -> bool) ls : any_site p ls = true <-> exists x, In x (concat ls) /\ p x = true.
Proof.
  unfold any_site. change (fold_left orb ?l false) with (fold_left (fun d x => orb d ((fun b => b) x)) l false).
  rewrite fold_or. cbn [orb]. rewrite existsb_exists. split.
  - intros (b & Hb & E). apply in_map_iff in Hb as (l & El & Hl). rewrite fold_or in El. cbn [orb] in El.
    subst b. apply existsb_exists in E as (x & Hx & Ex). exists x. split; [|exact Ex].
    apply in_concat. exists l. auto.
  - intros (x & Hx & Ex). apply in_concat in Hx as (l & Hl & Hx). exists true. split; [|reflexivity].
    apply in_map_iff. exists l. split; [|exact Hl]. rewrite fold_or. cbn [orb]. apply existsb_exists. exists x. auto.
Qed.
Lemma all_sites_iff {A} (p : A -> bool) ls : all_sites p ls = true <-> forall x, In x (concat ls) -> p x = true.
Proof.
  unfold all_sites. change (fold_left andb ?l true) with (fold_left (fun d x => andb d ((fun b => b) x)) l true).
  rewrite fold_and. cbn [andb]. rewrite forallb_forall. split.
  - intros H x Hx. apply in_concat in Hx as (l & Hl & Hx).
    specialize (H (forallb p l)). rewrite forallb_forall in H. apply H; [|exact Hx].
    apply in_map_iff. exists l. split; [|exact Hl]. rewrite fold_and. reflexivity.
  - intros H b Hb. apply in_map_iff in Hb as (l & El & Hl). rewrite fold_and in El. cbn [andb] in El.
    subst b. apply forallb_forall. intros x Hx. apply H. apply in_concat. exists l. auto.
Qed.

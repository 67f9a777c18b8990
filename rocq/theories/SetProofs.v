(** Lemmas about Set::make and Set objects. *)
From Coq Require Import List Arith ZArith Bool Lia Sorted.
From Coq Require Import ZifyBool ZifyNat.
From Verif Require Import Base LayoutModel LayoutSpec LayoutProofs LayoutOk SetModel SetSpec.
Import ListNotations.
Local Open Scope nat_scope.
Ltac Zify.zify_post_hook ::= Z.div_mod_to_equations.

(** ** mapM *)
Lemma mapM_Val {A B} (f : A -> res B) g l :
  (forall a, In a l -> f a = Val (g a)) -> mapM f l = Val (map g l).
Proof.
  induction l as [|a l IH]; intros H; [reflexivity|]. cbn [mapM map].
  rewrite H by (left; reflexivity). cbn [bind].
  rewrite IH by (intros; apply H; right; assumption). reflexivity.
Qed.

Lemma mapM_Val_inv {A B} (f : A -> res B) l bs :
  mapM f l = Val bs -> Forall2 (fun a b => f a = Val b) l bs.
Proof.
  revert bs. induction l as [|a l IH]; intros bs H; cbn [mapM] in H.
  - injection H as <-. constructor.
  - destruct (f a) eqn:E; cbn [bind] in H; try discriminate.
    destruct (mapM f l) eqn:E2; cbn [bind] in H; try discriminate.
    injection H as <-. constructor; auto.
Qed.

Lemma mapM_Abort {A B} (f : A -> res B) l :
  (forall a, In a l -> f a <> Undef) -> (exists a, In a l /\ f a = Abort) -> mapM f l = Abort.
Proof.
  induction l as [|a l IH]; intros H [x [Hx Hf]]; [destruct Hx|]. cbn [mapM].
  destruct (f a) eqn:E; cbn [bind].
  - destruct Hx as [->|Hx]; [congruence|].
    rewrite IH; [reflexivity| |eauto]. intros; apply H; right; assumption.
  - reflexivity.
  - exfalso. apply (H a); [left; reflexivity|assumption].
Qed.

(** ** Site tables *)
Lemma num_sitetable_gen (P : nat -> bool) l n :
  fold_left (fun n i => if P i then S n else n) l n = n + length (filter P l).
Proof.
  revert n. induction l as [|x l IH]; intros n; cbn [fold_left filter]; [simpl; lia|].
  rewrite IH. destruct (P x); simpl; lia.
Qed.

Lemma upd_app pre x v rest : upd (length pre) v (pre ++ x :: rest) = pre ++ v :: rest.
Proof. induction pre as [|a pre IH]; cbn; [reflexivity|]. f_equal. exact IH. Qed.

Lemma fill_gen (P : nat -> bool) l pre :
  snd (fold_left (fun jt i => if P i then (S (fst jt), upd (fst jt) i (snd jt)) else jt)
         l (length pre, pre ++ repeat 0 (length (filter P l)))) = pre ++ filter P l.
Proof.
  revert pre. induction l as [|x l IH]; intros pre; cbn [fold_left filter]; [reflexivity|].
  destruct (P x); [|apply IH].
  cbn [fst snd length repeat]. rewrite upd_app.
  specialize (IH (pre ++ [x])). rewrite app_length in IH. cbn [length] in IH.
  rewrite Nat.add_1_r in IH. rewrite <- !app_assoc in IH. exact IH.
Qed.

Lemma num_sitetable_eq col n cb :
  num_sitetable col n cb = length (filter (fun i => get col i =? cb) (seq 0 n)).
Proof. unfold num_sitetable. rewrite num_sitetable_gen. reflexivity. Qed.

Lemma sitetable_eq col n cb :
  sitetable col n cb = filter (fun i => get col i =? cb) (seq 0 n).
Proof.
  unfold sitetable. rewrite num_sitetable_eq.
  exact (fill_gen (fun i => get col i =? cb) (seq 0 n) []).
Qed.

Lemma seq_sorted a n : StronglySorted lt (seq a n).
Proof.
  revert a. induction n as [|n IH]; intros a; cbn [seq]; constructor; auto.
  apply Forall_forall. intros x Hx. apply in_seq in Hx. lia.
Qed.

Lemma filter_sorted {A} (R : A -> A -> Prop) P l :
  StronglySorted R l -> StronglySorted R (filter P l).
Proof.
  induction 1 as [|a l Hs IH Hf]; cbn [filter]; [constructor|].
  destruct (P a); [constructor|]; auto.
  apply Forall_forall. intros x Hx. apply filter_In in Hx.
  rewrite Forall_forall in Hf. apply Hf; tauto.
Qed.

Lemma make_subset_table col n cb : s_table (make_subset col n cb) = sitetable col n cb.
Proof.
  unfold make_subset. destruct (0 <? _); [destruct (no_hole _ _)|]; reflexivity.
Qed.

Lemma no_hole_iff p t : no_hole p t = true <-> t = seq p (length t).
Proof.
  revert p. induction t as [|x t IH]; intros p; cbn [no_hole length seq]; [tauto|].
  destruct (x =? p) eqn:E; cbn [negb].
  - apply Nat.eqb_eq in E. subst x. rewrite IH. split; intros H; [f_equal; exact H|congruence].
  - apply Nat.eqb_neq in E. split; [discriminate|]. intros H. congruence.
Qed.

Lemma make_subset_flags col n cb : flags_exact (make_subset col n cb).
Proof.
  unfold flags_exact. rewrite make_subset_table.
  unfold make_subset. rewrite num_sitetable_eq. rewrite <- sitetable_eq.
  set (t := sitetable col n cb). clearbody t.
  destruct t as [|x t].
  - cbn. repeat split; try discriminate; try tauto.
    intros (a & k & H). discriminate.
  - replace (0 <? length (x :: t)) with true by (symmetry; apply Nat.ltb_lt; simpl; lia).
    change (get (x :: t) 0) with x.
    destruct (no_hole x (x :: t)) eqn:E; cbn [s_ordRep s_start s_end].
    + apply no_hole_iff in E. split; [|split; [|discriminate]].
      * split; [intros _|reflexivity]. exists x, (length t). exact E.
      * intros _. exists x, (x + length t).
        assert (Hl : get (x :: t) (length (x :: t) - 1) = x + length t).
        { rewrite E at 1. unfold get. rewrite seq_nth by (simpl; lia). simpl length. lia. }
        rewrite Hl. repeat split; [lia|]. unfold run_of.
        replace (S (x + length t) - x) with (length (x :: t)) by (simpl length; lia).
        exact E.
    + split; [|split; [discriminate|auto]].
      split; [discriminate|]. intros (a & k & H). exfalso.
      assert (a = x) by (cbn [seq] in H; congruence). subst a.
      assert (no_hole x (x :: t) = true); [|congruence].
      apply no_hole_iff. rewrite H at 1. f_equal. rewrite H, seq_length. reflexivity.
Qed.

Lemma set_make_inv lay node f ss : set_make lay node f = Val ss ->
  exists col, lat_color lay node f = Val col /\
              ss = map (make_subset col (l_sites lay)) (seq 0 (sf_num f)).
Proof.
  unfold set_make. destruct (lat_color lay node f) as [col| |]; cbn [bind]; try discriminate.
  intros H. injection H as <-. eauto.
Qed.

Lemma nth_error_map_seq {A} (g : nat -> A) n i :
  nth_error (map g (seq 0 n)) i = if i <? n then Some (g i) else None.
Proof.
  destruct (i <? n) eqn:E.
  - apply Nat.ltb_lt in E. rewrite nth_error_map.
    rewrite (nth_error_nth' (seq 0 n) 0) by (rewrite seq_length; exact E).
    rewrite seq_nth by exact E. reflexivity.
  - apply Nat.ltb_ge in E. apply nth_error_None. rewrite map_length, seq_length. exact E.
Qed.

Lemma C07_all lay node f ss cb s :
  set_make lay node f = Val ss -> nth_error ss cb = Some s -> flags_exact s.
Proof.
  intros H Hs. apply set_make_inv in H as (col & _ & ->).
  rewrite nth_error_map_seq in Hs. destruct (cb <? _); [|discriminate].
  injection Hs as <-. apply make_subset_flags.
Qed.

(** ** The partition *)
Section Partition.
  Variables (lay : layout) (node num : nat) (f : setfunc) (colour : list nat -> Z).
  Hypothesis Hlay : layout_ok lay.
  Hypothesis Hnode : node < l_nodes lay.
  Hypothesis Hnum : sf_num f = num.
  Hypothesis Hf : forall i, i < l_sites lay ->
    sf_col f (l_coord lay node i) = Val (colour (l_coord lay node i)).

  Lemma lay_back i : i < l_sites lay ->
    l_node lay (l_coord lay node i) = node /\ l_lin lay (l_coord lay node i) = i.
  Proof.
    clear Hf Hnum. intros Hi. destruct Hlay as (_ & _ & _ & Hb).
    destruct (Hb (node, i) (conj Hnode Hi)) as [_ E]. cbn in E. split; congruence.
  Qed.

  Lemma site_colour_eq i : i < l_sites lay ->
    site_colour lay node f i =
      let z := colour (l_coord lay node i) in
      if (z <? 0)%Z || (Z.of_nat num <=? z)%Z then Abort else Val (Z.to_nat z).
  Proof.
    intros Hi. unfold site_colour. rewrite Hf by exact Hi. cbn [bind].
    destruct (lay_back i Hi) as [-> ->]. rewrite !Nat.eqb_refl, Hnum. reflexivity.
  Qed.

  Hypothesis Hrange : forall i, i < l_sites lay ->
    (0 <= colour (l_coord lay node i) < Z.of_nat num)%Z.

  Let cols := map (fun i => Z.to_nat (colour (l_coord lay node i))) (seq 0 (l_sites lay)).

  Lemma lat_color_eq : lat_color lay node f = Val cols.
  Proof.
    unfold lat_color, cols. apply mapM_Val. intros i Hi. apply in_seq in Hi.
    rewrite site_colour_eq by lia. cbv zeta. specialize (Hrange i).
    destruct ((_ <? 0)%Z) eqn:E1; [lia|]. destruct ((_ <=? _)%Z) eqn:E2; [lia|]. reflexivity.
  Qed.

  Definition subsets := map (make_subset cols (l_sites lay)) (seq 0 num).

  Lemma set_make_eq : set_make lay node f = Val subsets.
  Proof. unfold set_make, subsets. rewrite lat_color_eq. cbn [bind]. rewrite Hnum. reflexivity. Qed.

  Lemma get_cols i : i < l_sites lay -> get cols i = Z.to_nat (colour (l_coord lay node i)).
  Proof. intros Hi. unfold cols. rewrite get_map_seq by exact Hi. reflexivity. Qed.

  Lemma in_table cb i :
    In i (sitetable cols (l_sites lay) cb) <->
    i < l_sites lay /\ colour (l_coord lay node i) = Z.of_nat cb.
  Proof.
    rewrite sitetable_eq, filter_In, in_seq. split.
    - intros [Hi E]. apply Nat.eqb_eq in E. rewrite get_cols in E by lia.
      specialize (Hrange i). split; lia.
    - intros [Hi E]. split; [lia|]. apply Nat.eqb_eq. rewrite get_cols by lia. lia.
  Qed.

  Lemma subsets_partition : is_partition lay node num colour subsets.
  Proof.
    split.
    - unfold subsets. rewrite map_length, seq_length. reflexivity.
    - intros cb s Hs. unfold subsets in Hs. rewrite nth_error_map_seq in Hs.
      destruct (cb <? num); [|discriminate]. injection Hs as <-.
      rewrite make_subset_table. split.
      + rewrite sitetable_eq. apply filter_sorted, seq_sorted.
      + intros i. apply in_table.
  Qed.

  Lemma count_colours (g : nat -> nat) l n :
    (forall i, In i l -> g i < n) ->
    list_sum (map (fun cb => length (filter (fun i => g i =? cb) l)) (seq 0 n)) = length l.
  Proof.
    clear. induction l as [|x l IH]; intros H.
    - cbn. assert (forall k a, list_sum (map (fun _ : nat => 0) (seq a k)) = 0) as E.
      { induction k; intros; simpl; auto. }
      apply E.
    - cbn [filter]. specialize (IH (fun i Hi => H i (or_intror Hi))).
      assert (Hx : g x < n) by (apply H; left; reflexivity). clear H.
      cbn [length]. rewrite <- IH. clear IH.
      assert (E : forall k a,
        list_sum (map (fun cb => length (if g x =? cb then x :: filter (fun i => g i =? cb) l
                                         else filter (fun i => g i =? cb) l)) (seq a k)) =
        list_sum (map (fun cb => length (filter (fun i => g i =? cb) l)) (seq a k)) +
        (if (a <=? g x) && (g x <? a + k) then 1 else 0)).
      { induction k as [|k IH]; intros a.
        - cbn [seq map]. change (list_sum []) with 0.
          destruct (a <=? g x) eqn:E1, (g x <? a + 0) eqn:E2; cbn [andb]; lia.
        - cbn [seq map]. change (list_sum (?u :: ?v)) with (u + list_sum v) in *.
          rewrite IH. destruct (g x =? a) eqn:E0; cbn [length];
          destruct (S a <=? g x) eqn:E1, (g x <? S a + k) eqn:E2,
                   (a <=? g x) eqn:E3, (g x <? a + S k) eqn:E4; cbn [andb]; lia. }
      rewrite E. replace ((0 <=? g x) && (g x <? 0 + n)) with true; [lia|].
      symmetry. apply andb_true_intro. split; [apply Nat.leb_le|apply Nat.ltb_lt]; lia.
  Qed.

  Lemma subsets_cover : covers_once lay subsets.
  Proof.
    destruct subsets_partition as [Hlen Hp]. split.
    - intros i Hi. specialize (Hrange i Hi).
      exists (Z.to_nat (colour (l_coord lay node i))). split.
      + assert (Hc : Z.to_nat (colour (l_coord lay node i)) < length subsets) by lia.
        destruct (nth_error subsets (Z.to_nat (colour (l_coord lay node i)))) as [s|] eqn:E.
        * exists s. split; [reflexivity|]. apply (Hp _ _ E). lia.
        * apply nth_error_None in E. lia.
      + intros cb (s & Hs & Hin). apply (Hp _ _ Hs) in Hin. lia.
    - unfold subsets. rewrite map_map.
      rewrite (map_ext _ (fun cb => length (filter (fun i => get cols i =? cb)
                                                 (seq 0 (l_sites lay))))).
      2:{ intros cb. rewrite make_subset_table, sitetable_eq. reflexivity. }
      rewrite count_colours.
      + apply seq_length.
      + intros i Hi. apply in_seq in Hi. rewrite get_cols by lia. specialize (Hrange i). lia.
  Qed.
End Partition.

Lemma set_make_out_of_range lay node num colour :
  layout_ok lay -> node < l_nodes lay ->
  (exists i, i < l_sites lay /\
     ~ (0 <= colour (l_coord lay node i) < Z.of_nat num)%Z) ->
  set_make lay node {| sf_num := num; sf_col := fun c => Val (colour c) |} = Abort.
Proof.
  intros Hl Hn (i & Hi & Hc). unfold set_make.
  replace (lat_color lay node {| sf_num := num; sf_col := fun c => Val (colour c) |})
    with (@Abort (list nat)); [reflexivity|]. symmetry.
  unfold lat_color. apply mapM_Abort.
  - intros j Hj. apply in_seq in Hj.
    rewrite (site_colour_eq lay node num _ colour) by (auto; lia). cbv zeta.
    destruct (_ || _); discriminate.
  - exists i. split; [apply in_seq; lia|].
    rewrite (site_colour_eq lay node num _ colour) by (auto; lia). cbv zeta.
    destruct ((colour (l_coord lay node i) <? 0)%Z) eqn:E1; [reflexivity|].
    destruct ((Z.of_nat num <=? colour (l_coord lay node i))%Z) eqn:E2; [reflexivity|].
    exfalso. apply Hc. lia.
Qed.

Lemma C06_all lay node num colour :
  layout_ok lay -> node < l_nodes lay ->
  let f := {| sf_num := num; sf_col := fun c => Val (colour c) |} in
  let in_range i := (0 <= colour (l_coord lay node i) < Z.of_nat num)%Z in
  ((forall i, i < l_sites lay -> in_range i) ->
     exists ss, set_make lay node f = Val ss /\
                is_partition lay node num colour ss /\ covers_once lay ss) /\
  ((exists i, i < l_sites lay /\ ~ in_range i) -> set_make lay node f = Abort).
Proof.
  intros Hl Hn f in_range. split.
  - intros Hr. exists (subsets lay node num colour). split; [|split].
    + apply set_make_eq; auto.
    + eapply (subsets_partition lay node num f); eauto.
    + eapply (subsets_cover lay node num f); eauto.
  - apply set_make_out_of_range; auto.
Qed.

(** ** Predefined colourings *)
Lemma foldZ_nat (g : nat -> nat) l a :
  fold_left (fun s m => (s + Z.of_nat (g m))%Z) l (Z.of_nat a)
  = Z.of_nat (fold_left (fun s m => s + g m) l a).
Proof.
  revert a. induction l as [|x l IH]; intros a; cbn [fold_left]; [reflexivity|].
  rewrite <- Nat2Z.inj_add. apply IH.
Qed.

Lemma Zland1 n : Z.land (Z.of_nat n) 1 = Z.of_nat (n mod 2).
Proof.
  change 1%Z with (Z.ones 1). rewrite Z.land_ones by lia. change (2 ^ 1)%Z with 2%Z.
  rewrite Nat2Z.inj_mod. reflexivity.
Qed.

Lemma fold_seq_sum m c : m <= length c ->
  fold_left (fun s i => (s + Z.of_nat (get c i))%Z) (seq 0 m) 0%Z = Z.of_nat (coord_sum m c).
Proof.
  intros H. change 0%Z with (Z.of_nat 0).
  rewrite (foldZ_nat (get c) (seq 0 m) 0), fold_sum, <- psum_coord_sum by exact H.
  reflexivity.
Qed.

Lemma rb_col c : sf_col SetRBFunc c = Val (Z.of_nat (coord_sum (length c) c mod 2)).
Proof. cbn [sf_col SetRBFunc]. rewrite fold_seq_sum by lia. rewrite Zland1. reflexivity. Qed.

Lemma rb3_col c : 3 <= length c -> sf_col SetRB3Func c = Val (Z.of_nat (coord_sum 3 c mod 2)).
Proof.
  intros H. unfold SetRB3Func, sf_col. destruct (length c <? 3) eqn:E; [lia|].
  rewrite fold_seq_sum by lia. rewrite Zland1. reflexivity.
Qed.

Lemma fold_half c :
  fold_left (fun s m => (s + Z.shiftr (Z.of_nat (get c m)) 1)%Z) (seq 0 (length c)) 0%Z
  = Z.of_nat (list_sum (map (fun x => x / 2) c)).
Proof.
  transitivity (Z.of_nat (fold_left (fun s m => s + get c m / 2) (seq 0 (length c)) 0)).
  - rewrite <- (foldZ_nat (fun m => get c m / 2)).
    change (Z.of_nat 0) with 0%Z. generalize 0%Z.
    induction (seq 0 (length c)) as [|x l IH]; intros z; cbn [fold_left]; [reflexivity|].
    rewrite <- IH. f_equal. f_equal. rewrite Z.shiftr_div_pow2 by lia.
    change (2 ^ 1)%Z with 2%Z. rewrite Nat2Z.inj_div. reflexivity.
  - f_equal. rewrite fold_sum. cbn [Nat.add]. f_equal.
    rewrite <- (map_map (get c) (fun x => x / 2)). f_equal. unfold get.
    clear. induction c as [|x c IH]; [reflexivity|]. cbn [length seq map nth].
    f_equal. rewrite <- seq_shift, map_map. exact IH.
Qed.

Lemma fold_bits c l a :
  fold_left (fun s m => (Z.shiftl s 1 + Z.land (Z.of_nat (get c m)) 1)%Z) l (Z.of_nat a)
  = Z.of_nat (fold_left (fun s m => 2 * s + get c m mod 2) l a).
Proof.
  revert a. induction l as [|x l IH]; intros a; cbn [fold_left]; [reflexivity|].
  rewrite <- IH. f_equal. rewrite Zland1, Z.shiftl_mul_pow2 by lia. change (2 ^ 1)%Z with 2%Z. lia.
Qed.

Lemma cb32_col c : sf_col (Set32CBFunc (length c)) c = Val (Z.of_nat (colour32 c)).
Proof.
  cbn [sf_col Set32CBFunc]. rewrite fold_half, Zland1.
  change 0%Z with (Z.of_nat 0) at 1. rewrite (fold_bits c (rev (seq 0 (length c))) 0).
  rewrite <- fold_left_rev_right, rev_involutive, fold_parity_bits.
  rewrite Z.shiftl_mul_pow2 by lia. unfold colour32. f_equal.
  rewrite Nat2Z.inj_add, Nat2Z.inj_mul, Nat2Z.inj_pow. change (Z.of_nat 2) with 2%Z. ring.
Qed.

Lemma coord_length lay node i :
  layout_ok lay -> node < l_nodes lay -> i < l_sites lay ->
  in_lattice (l_size lay) (l_coord lay node i) /\
  length (l_coord lay node i) = length (l_size lay).
Proof.
  intros (_ & _ & _ & Hb) Hn Hi. destruct (Hb (node, i) (conj Hn Hi)) as [H _].
  cbn in H. split; [exact H|]. apply in_lattice_length; exact H.
Qed.

(** ** initDefaultSets *)
Lemma colour32_lt' c : colour32 c < 2 ^ (length c + 1).
Proof.
  unfold colour32. pose proof (parity_bits_lt c).
  rewrite Nat.add_1_r, Nat.pow_succ_r by lia.
  pose proof (Nat.mod_upper_bound (list_sum (map (fun x => x / 2) c)) 2 ltac:(lia)). nia.
Qed.

Lemma set_make_general lay node f colour :
  layout_ok lay -> node < l_nodes lay ->
  (forall i, i < l_sites lay ->
     sf_col f (l_coord lay node i) = Val (colour (l_coord lay node i)) /\
     (0 <= colour (l_coord lay node i) < Z.of_nat (sf_num f))%Z) ->
  exists ss, set_make lay node f = Val ss /\
             is_partition lay node (sf_num f) colour ss /\ covers_once lay ss.
Proof.
  intros Hl Hn H. exists (subsets lay node (sf_num f) colour).
  assert (H1 := fun i Hi => proj1 (H i Hi)). assert (H2 := fun i Hi => proj2 (H i Hi)).
  split; [apply set_make_eq; auto|]. split; [eapply (subsets_partition lay node (sf_num f) f)|eapply (subsets_cover lay node (sf_num f) f)]; eauto.
Qed.

Lemma list_nth2 {A} (l : list A) n i : length l = n -> i < n -> exists x, nth_error l i = Some x.
Proof.
  intros H Hi. destruct (nth_error l i) eqn:E; [eauto|]. apply nth_error_None in E. lia.
Qed.

Lemma initDefaultSets_ok lay node :
  layout_ok lay -> node < l_nodes lay -> 3 <= length (l_size lay) ->
  exists d, initDefaultSets lay node = Val d /\
    (is_partition lay node 2 rb_colour (d_rb d) /\ covers_once lay (d_rb d)) /\
    (is_partition lay node 2 rb3_colour (d_rb3 d) /\ covers_once lay (d_rb3 d)) /\
    (is_partition lay node (2 ^ (length (l_size lay) + 1)) mcb_colour (d_mcb d) /\
     covers_once lay (d_mcb d)) /\
    (forall i, In i (s_table (d_all d)) <-> i < l_sites lay) /\
    (forall i, In i (s_table (d_even d)) <->
       i < l_sites lay /\ let c := l_coord lay node i in Nat.Even (coord_sum (length c) c)) /\
    (forall i, In i (s_table (d_odd d)) <->
       i < l_sites lay /\ let c := l_coord lay node i in Nat.Odd (coord_sum (length c) c)).
Proof.
  intros Hl Hn H3.
  assert (Hlen := fun i Hi => proj2 (coord_length lay node i Hl Hn Hi)).
  destruct (set_make_general lay node SetRBFunc rb_colour Hl Hn) as (rb & E1 & P1 & C1).
  { intros i Hi. rewrite rb_col. split; [reflexivity|]. unfold rb_colour. cbn [sf_num SetRBFunc].
    pose proof (Nat.mod_upper_bound (coord_sum (length (l_coord lay node i)) (l_coord lay node i)) 2 ltac:(lia)).
    lia. }
  destruct (set_make_general lay node SetRB3Func rb3_colour Hl Hn) as (rb3 & E2 & P2 & C2).
  { intros i Hi. rewrite rb3_col by (rewrite Hlen; auto). split; [reflexivity|].
    unfold rb3_colour. cbn [sf_num SetRB3Func].
    pose proof (Nat.mod_upper_bound (coord_sum 3 (l_coord lay node i)) 2 ltac:(lia)). lia. }
  destruct (set_make_general lay node (Set32CBFunc (length (l_size lay))) mcb_colour Hl Hn)
    as (mcb & E3 & P3 & C3).
  { intros i Hi. rewrite <- (Hlen i Hi), cb32_col. split; [reflexivity|].
    unfold mcb_colour. cbn [sf_num Set32CBFunc]. rewrite Nat.shiftl_1_l.
    pose proof (colour32_lt' (l_coord lay node i)). lia. }
  destruct (set_make_general lay node SetAllFunc (fun _ => 0%Z) Hl Hn) as (al & E4 & P4 & C4).
  { intros i Hi. split; [reflexivity|]. cbn. lia. }
  change (sf_num SetRBFunc) with 2 in P1. change (sf_num SetRB3Func) with 2 in P2.
  change (sf_num SetAllFunc) with 1 in P4.
  change (sf_num (Set32CBFunc (length (l_size lay)))) with (Nat.shiftl 1 (length (l_size lay) + 1)) in P3.
  rewrite Nat.shiftl_1_l in P3.
  destruct (list_nth2 al 1 0 (proj1 P4) ltac:(lia)) as [a0 Ea].
  destruct (list_nth2 rb 2 0 (proj1 P1) ltac:(lia)) as [ev Ee].
  destruct (list_nth2 rb 2 1 (proj1 P1) ltac:(lia)) as [od Eo].
  unfold initDefaultSets, nth_subset.
  rewrite E1. cbn [bind]. rewrite E2. cbn [bind]. rewrite E3. cbn [bind]. rewrite E4. cbn [bind].
  rewrite Ea. cbn [of_option bind]. rewrite Ee, Eo. cbn [of_option bind].
  eexists. split; [reflexivity|]. cbn [d_rb d_rb3 d_mcb d_all d_even d_odd].
  split; [auto|]. split; [auto|]. split; [auto|].
  split; [|split].
  - intros i. rewrite (proj2 (proj2 P4 _ _ Ea) i). cbn. intuition.
  - intros i. rewrite (proj2 (proj2 P1 _ _ Ee) i). unfold rb_colour. cbv zeta.
    set (q := coord_sum _ _). rewrite <- Nat.even_spec.
    rewrite (Nat.div_mod q 2) at 2 by lia.
    rewrite Nat.even_add, Nat.even_mul. cbn [Nat.even orb].
    pose proof (Nat.mod_upper_bound q 2 ltac:(lia)).
    destruct (q mod 2) as [|[|]]; cbn; intuition (try lia; try discriminate).
  - intros i. rewrite (proj2 (proj2 P1 _ _ Eo) i). unfold rb_colour. cbv zeta.
    set (q := coord_sum _ _). rewrite <- Nat.odd_spec.
    rewrite (Nat.div_mod q 2) at 2 by lia.
    rewrite Nat.odd_add, Nat.odd_mul. change (Nat.odd 2) with false. cbn [andb].
    pose proof (Nat.mod_upper_bound q 2 ltac:(lia)).
    destruct (q mod 2) as [|[|]]; cbn; intuition (try lia; try discriminate).
Qed.

Lemma initDefaultSets_low lay node :
  layout_ok lay -> node < l_nodes lay -> 0 < l_sites lay -> length (l_size lay) < 3 ->
  initDefaultSets lay node = Abort.
Proof.
  intros Hl Hn Hs H3.
  destruct (set_make_general lay node SetRBFunc rb_colour Hl Hn) as (rb & E1 & _).
  { intros i Hi. rewrite rb_col. split; [reflexivity|]. unfold rb_colour. cbn [sf_num SetRBFunc].
    pose proof (Nat.mod_upper_bound (coord_sum (length (l_coord lay node i)) (l_coord lay node i)) 2 ltac:(lia)).
    lia. }
  unfold initDefaultSets. rewrite E1. cbn [bind].
  replace (set_make lay node SetRB3Func) with (@Abort (list subset)); [reflexivity|].
  symmetry. unfold set_make, lat_color.
  assert (A : forall i, i < l_sites lay -> site_colour lay node SetRB3Func i = Abort).
  { intros i Hi. unfold site_colour. unfold sf_col, SetRB3Func.
    rewrite (proj2 (coord_length lay node i Hl Hn Hi)).
    destruct (_ <? 3) eqn:E; [reflexivity|lia]. }
  rewrite mapM_Abort; [reflexivity| |].
  - intros i Hi. apply in_seq in Hi. rewrite A by lia. discriminate.
  - exists 0. split; [apply in_seq; lia|]. apply A; lia.
Qed.

(** ** Parity of neighbours *)
Lemma coord_sum_upd c mu v : mu < length c ->
  coord_sum (length c) (upd mu v c) + get c mu = coord_sum (length c) c + v.
Proof.
  intros H0. unfold coord_sum. rewrite <- (length_upd mu v c) at 1. rewrite !firstn_all.
  revert mu H0. induction c as [|x c IH]; intros mu H; [simpl in H; lia|].
  destruct mu as [|mu]; cbn [upd]; unfold get; cbn [nth].
  - unfold list_sum. cbn [fold_right]. lia.
  - specialize (IH mu ltac:(simpl in H; lia)). unfold get, list_sum in *. cbn [fold_right]. lia.
Qed.

Lemma neighbour_parity L c mu :
  in_lattice L c -> mu < length L -> Nat.Even (get L mu) ->
  coord_sum (length c) (neighbour L c mu) mod 2 <> coord_sum (length c) c mod 2.
Proof.
  intros Hc Hmu [h Hh]. pose proof (in_lattice_length _ _ Hc) as Hlen.
  pose proof (coord_sum_upd c mu ((get c mu + 1) mod get L mu) ltac:(lia)) as E.
  fold (neighbour L c mu) in E. apply in_lattice_get in Hc as [_ Hc]. specialize (Hc mu Hmu).
  assert ((get c mu + 1) mod get L mu = get c mu + 1 \/
          ((get c mu + 1) mod get L mu = 0 /\ get c mu + 1 = get L mu)) as D.
  { destruct (Nat.eq_dec (get c mu + 1) (get L mu)) as [E1|E1].
    - right. rewrite E1. split; [apply Nat.mod_same; lia|reflexivity].
    - left. apply Nat.mod_small. lia. }
  set (p := coord_sum _ (neighbour _ _ _)) in *. set (q := coord_sum _ c) in *. clearbody p q. lia.
Qed.

(** ** Set objects *)
Lemma make_subs_nth a l : forall i k s, nth_error l k = Some s ->
  nth_error (make_subs a i l) k =
    Some {| so_ordRep := s_ordRep s; so_start := s_start s; so_end := s_end s;
            so_block := a; so_index := i + k |}.
Proof.
  induction l as [|x l IH]; intros i [|k] s H; cbn in H |- *; try discriminate.
  - injection H as ->. rewrite Nat.add_0_r. reflexivity.
  - rewrite (IH (S i) k s H). rewrite Nat.add_succ_r. reflexivity.
Qed.

(** Heap invariant: blocks at or above [next] are unused, table addresses are below
    [next], and different objects own different blocks. *)
Definition heap_inv (h : heap) : Prop :=
  (forall a, next h <= a -> block h a = None) /\
  (forall id o, objs h id = Some o -> tables o < next h /\
     exists t, block h (tables o) = Some t /\ length t = ntables o) /\
  (forall i j o p, objs h i = Some o -> objs h j = Some p -> i <> j -> tables o <> tables p).

Lemma fupd_eq {A} (f : nat -> A) k v : fupd f k v k = v.
Proof. unfold fupd. rewrite Nat.eqb_refl. reflexivity. Qed.
Lemma fupd_ne {A} (f : nat -> A) k v i : i <> k -> fupd f k v i = f i.
Proof. intros H. unfold fupd. apply Nat.eqb_neq in H. rewrite H. reflexivity. Qed.

Ltac fdest := repeat match goal with
  | |- context [fupd _ ?k _ ?i] => destruct (Nat.eq_dec i k) as [?|?];
      [subst; rewrite fupd_eq | rewrite fupd_ne by assumption]
  | H : context [fupd _ ?k _ ?i] |- _ => destruct (Nat.eq_dec i k) as [?|?];
      [subst; rewrite fupd_eq in H | rewrite fupd_ne in H by assumption]
  end.

Definition untouched (h h' : heap) (id : nat) : Prop :=
  objs h' id = objs h id /\
  forall o, objs h id = Some o -> block h' (tables o) = block h (tables o).

Lemma heap_inv_empty : heap_inv empty_heap.
Proof. repeat split; cbn; intros; discriminate. Qed.

Lemma step_inv h op : heap_inv h ->
  heap_inv (set_step h op) /\
  forall id, ~ targets op id -> untouched h (set_step h op) id.
Proof.
  intros (H1 & H2 & H3).
  assert (H0 : heap_inv h) by (split; [exact H1|split; [exact H2|exact H3]]).
  destruct op as [id content|id src|id src|id]; cbn [set_step targets].
  - unfold free_tables. destruct (objs h id) as [o|] eqn:Eo.
    + destruct (H2 _ _ Eo) as (To & to & Bo & Lo).
      split.
      * split; [|split]; cbn.
        -- intros a Ha. fdest; try lia; apply H1; lia.
        -- intros j p Hj. destruct (Nat.eq_dec j id) as [->|Hne];
             [rewrite fupd_eq in Hj|rewrite fupd_ne in Hj by assumption].
           ++ injection Hj as <-. cbn. split; [lia|]. rewrite fupd_eq.
              eexists; split; [reflexivity|]. apply map_length.
           ++ destruct (H2 _ _ Hj) as (Tp & tp & Bp & Lp). split; [lia|]. exists tp.
              rewrite fupd_ne by lia. rewrite fupd_ne; [auto|].
              apply (H3 j id p o); auto.
        -- intros i j p q Hi Hj Hij. fdest; try congruence.
           ++ injection Hj as <-. cbn. destruct (H2 _ _ Hi). lia.
           ++ injection Hi as <-. cbn. destruct (H2 _ _ Hj). lia.
           ++ eauto.
      * intros j Hj. assert (j <> id) by congruence. split; cbn.
        -- rewrite fupd_ne; auto.
        -- intros p Hp. destruct (H2 _ _ Hp) as (Tp & _). rewrite fupd_ne by lia.
           rewrite fupd_ne; [reflexivity|]. apply (H3 j id p o); auto.
    + split.
      * split; [|split]; cbn.
        -- intros a Ha. rewrite fupd_ne by lia. apply H1; lia.
        -- intros j p Hj. destruct (Nat.eq_dec j id) as [->|Hne];
             [rewrite fupd_eq in Hj|rewrite fupd_ne in Hj by assumption].
           ++ injection Hj as <-. cbn. split; [lia|]. rewrite fupd_eq.
              eexists; split; [reflexivity|]. apply map_length.
           ++ destruct (H2 _ _ Hj) as (Tp & tp & Bp & Lp). split; [lia|]. exists tp.
              rewrite fupd_ne by lia. auto.
        -- intros i j p q Hi Hj Hij. fdest; try congruence.
           ++ injection Hj as <-. cbn. destruct (H2 _ _ Hi). lia.
           ++ injection Hi as <-. cbn. destruct (H2 _ _ Hj). lia.
           ++ eauto.
      * intros j Hj. assert (j <> id) by congruence. split; cbn.
        -- rewrite fupd_ne; auto.
        -- intros p Hp. destruct (H2 _ _ Hp) as (Tp & _). rewrite fupd_ne by lia. reflexivity.
  - destruct (objs h src) as [o|] eqn:Es; [|split; [auto|intros; split; auto]].
    destruct (objs h id) as [d|] eqn:Ed; [split; [auto|intros; split; auto]|].
    destruct (H2 _ _ Es) as (To & to & Bo & Lo). rewrite Bo. split.
    + split; [|split]; cbn.
      * intros a Ha. rewrite fupd_ne by lia. apply H1; lia.
      * intros j p Hj. destruct (Nat.eq_dec j id) as [->|Hne];
             [rewrite fupd_eq in Hj|rewrite fupd_ne in Hj by assumption].
        -- injection Hj as <-. cbn. split; [lia|]. rewrite fupd_eq. eauto.
        -- destruct (H2 _ _ Hj) as (Tp & tp & Bp & Lp). split; [lia|]. exists tp.
           rewrite fupd_ne by lia. auto.
      * intros i j p q Hi Hj Hij. fdest; try congruence.
        -- injection Hj as <-. cbn. destruct (H2 _ _ Hi). lia.
        -- injection Hi as <-. cbn. destruct (H2 _ _ Hj). lia.
        -- eauto.
    + intros j Hj. assert (j <> id) by congruence. split; cbn.
      * rewrite fupd_ne; auto.
      * intros p Hp. destruct (H2 _ _ Hp) as (Tp & _). rewrite fupd_ne by lia. reflexivity.
  - destruct (objs h src) as [o|] eqn:Es; [|split; [auto|intros; split; auto]].
    destruct (objs h id) as [d|] eqn:Ed; [|split; [auto|intros; split; auto]].
    destruct (H2 _ _ Es) as (To & to & Bo & Lo). rewrite Bo.
    destruct (H2 _ _ Ed) as (Td & td & Bd & Ld).
    destruct (ntables d =? ntables o) eqn:En.
    + apply Nat.eqb_eq in En. split.
      * split; [|split]; cbn.
        -- intros a Ha. rewrite fupd_ne by lia. apply H1; lia.
        -- intros j p Hj. destruct (Nat.eq_dec j id) as [->|Hne].
           ++ rewrite fupd_eq in Hj. injection Hj as <-. cbn. split; [lia|]. rewrite fupd_eq.
              exists to. split; [reflexivity|congruence].
           ++ rewrite fupd_ne in Hj by auto.
              destruct (H2 _ _ Hj) as (Tp & tp & Bp & Lp). split; [lia|]. exists tp.
              rewrite fupd_ne; [auto|]. apply (H3 j id p d); auto.
        -- intros i j p q Hi Hj Hij. fdest; try congruence.
           ++ injection Hj as <-. cbn. apply (H3 i id p d); auto.
           ++ injection Hi as <-. cbn. apply (H3 id j d q); auto.
           ++ eauto.
      * intros j Hj. assert (j <> id) by congruence. split; cbn.
        -- rewrite fupd_ne; auto.
        -- intros p Hp. rewrite fupd_ne; [reflexivity|]. apply (H3 j id p d); auto.
    + unfold free_tables. rewrite Ed. split.
      * split; [|split]; cbn.
        -- intros a Ha. fdest; try lia; apply H1; lia.
        -- intros j p Hj. destruct (Nat.eq_dec j id) as [->|Hne].
           ++ rewrite fupd_eq in Hj. injection Hj as <-. cbn. split; [lia|].
              rewrite fupd_eq. eauto.
           ++ rewrite fupd_ne in Hj by auto.
              destruct (H2 _ _ Hj) as (Tp & tp & Bp & Lp). split; [lia|]. exists tp.
              rewrite fupd_ne by lia. rewrite fupd_ne; [auto|]. apply (H3 j id p d); auto.
        -- intros i j p q Hi Hj Hij. fdest; try congruence.
           ++ injection Hj as <-. cbn. destruct (H2 _ _ Hi). lia.
           ++ injection Hi as <-. cbn. destruct (H2 _ _ Hj). lia.
           ++ eauto.
      * intros j Hj. assert (j <> id) by congruence. split; cbn.
        -- rewrite fupd_ne; auto.
        -- intros p Hp. destruct (H2 _ _ Hp) as (Tp & _). rewrite fupd_ne by lia.
           rewrite fupd_ne; [reflexivity|]. apply (H3 j id p d); auto.
  - unfold free_tables. destruct (objs h id) as [o|] eqn:Eo.
    + destruct (H2 _ _ Eo) as (To & to & Bo & Lo). split.
      * split; [|split]; cbn.
        -- intros a Ha. rewrite fupd_ne by lia. apply H1; lia.
        -- intros j p Hj. destruct (Nat.eq_dec j id) as [->|Hne];
             [rewrite fupd_eq in Hj; discriminate|]. rewrite fupd_ne in Hj by auto.
           destruct (H2 _ _ Hj) as (Tp & tp & Bp & Lp). split; [lia|]. exists tp.
           rewrite fupd_ne; [auto|]. apply (H3 j id p o); auto.
        -- intros i j p q Hi Hj Hij. fdest; try congruence. eauto.
      * intros j Hj. assert (j <> id) by congruence. split; cbn.
        -- rewrite fupd_ne; auto.
        -- intros p Hp. rewrite fupd_ne; [reflexivity|]. apply (H3 j id p o); auto.
    + split.
      * split; [|split]; cbn; auto.
        -- intros j p Hj. destruct (Nat.eq_dec j id) as [->|Hne];
             [rewrite fupd_eq in Hj; discriminate|rewrite fupd_ne in Hj by assumption]. exact (H2 _ _ Hj).
        -- intros i j p q Hi Hj Hij. fdest; try congruence. eauto.
      * intros j Hj. assert (j <> id) by congruence. split; cbn; auto.
        rewrite fupd_ne; auto.
Qed.

Lemma run_inv ops h : heap_inv h ->
  heap_inv (set_run ops h) /\
  forall id, (forall op, In op ops -> ~ targets op id) -> untouched h (set_run ops h) id.
Proof.
  revert h. induction ops as [|op ops IH]; intros h H; cbn [set_run fold_left].
  - split; [auto|]. intros; split; auto.
  - destruct (step_inv h op H) as [H1 U1]. destruct (IH _ H1) as [H2 U2]. split; [exact H2|].
    intros id Hid. destruct (U1 id (Hid op (or_introl eq_refl))) as [A1 B1].
    destruct (U2 id (fun o Ho => Hid o (or_intror Ho))) as [A2 B2].
    fold (set_run ops (set_step h op)). split; [congruence|].
    intros o Ho. rewrite B2 by (rewrite A1; exact Ho). auto.
Qed.

Lemma copy_ok pre post src dst content i s :
  src <> dst ->
  objs (set_run pre empty_heap) dst = None ->
  (forall op, In op post -> ~ targets op src /\ ~ targets op dst) ->
  nth_error content i = Some s ->
  set_read (set_run (pre ++ [OMake src content; OCopy dst src] ++ post) empty_heap) dst i = Val s.
Proof.
  intros Hne Hd Hpost Hs. unfold set_run in *. rewrite !fold_left_app.
  destruct (run_inv pre empty_heap heap_inv_empty) as [I0 _].
  unfold set_run in I0. set (h0 := fold_left set_step pre empty_heap) in *. clearbody h0.
  cbn [fold_left].
  destruct (step_inv h0 (OMake src content) I0) as [I1 U1].
  set (h1 := set_step h0 (OMake src content)) in *.
  assert (E1 : objs h1 src = Some {| sub := make_subs (next h0) 0 content; tables := next h0;
                                     ntables := length content |}).
  { unfold h1, set_step. cbn [objs set_obj_at]. apply fupd_eq. }
  assert (E2 : block h1 (next h0) = Some (map s_table content)).
  { unfold h1, set_step, set_obj_at, fill, free_tables. cbn [block].
    destruct (objs h0 src); cbn [next block]; apply fupd_eq. }
  assert (E3 : objs h1 dst = None) by (rewrite (proj1 (U1 dst ltac:(cbn; congruence))); exact Hd).
  clearbody h1.
  destruct (step_inv h1 (OCopy dst src) I1) as [I2 U2].
  set (h2 := set_step h1 (OCopy dst src)) in *.
  assert (E4 : exists o, objs h2 dst = Some o /\ sub o = make_subs (next h0) 0 content).
  { unfold h2, set_step. rewrite E1, E3. cbn [tables]. rewrite E2. cbn [objs set_obj_at].
    rewrite fupd_eq. eexists; split; reflexivity. }
  destruct (U2 src ltac:(cbn; congruence)) as [E5 E6]. rewrite E1 in E5.
  specialize (E6 _ E1). cbn [tables] in E6. rewrite E2 in E6.
  clearbody h2.
  destruct (run_inv post h2 I2) as [I3 U3]. unfold set_run in *.
  destruct (U3 src (fun op H => proj1 (Hpost op H))) as [_ E7].
  specialize (E7 _ E5). cbn [tables] in E7. rewrite E6 in E7.
  destruct (U3 dst (fun op H => proj2 (Hpost op H))) as [E8 _].
  destruct E4 as (o & E4 & Eo). rewrite E4 in E8.
  unfold set_read. rewrite E8. cbn [of_option bind]. rewrite Eo.
  rewrite (make_subs_nth _ _ 0 i s Hs). cbn [of_option bind so_block so_index].
  rewrite E7. cbn [of_option bind]. rewrite nth_error_map. cbn [Nat.add]. rewrite Hs.
  cbn [option_map of_option bind so_ordRep so_start so_end]. destruct s; reflexivity.
Qed.

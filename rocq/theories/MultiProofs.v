(** Lemmas about element offsets, comparison and loops over arrays in memory. *)
From Coq Require Import List Arith Bool Lia Permutation.
From Verif Require Import Base MultiModel MultiSpec.
Import ListNotations.

(** ** Offsets *)
Lemma range_length dims ix : in_range dims ix -> length ix = length dims.
Proof. intros H. induction H; cbn; congruence. Qed.
Fixpoint pos (dims ix : list nat) : nat :=
  match dims, ix with
  | _ :: ns, i :: is => i * volume ns + pos ns is
  | _, _ => 0
  end.
Lemma elements_volume dims : elements dims = volume dims.
Proof. induction dims as [|n d IH]; [reflexivity|]. cbn [elements volume fold_right]. fold (elements d) (volume d). rewrite IH. lia. Qed.

Lemma pos_lt dims : forall ix, in_range dims ix -> pos dims ix < volume dims.
Proof.
  induction dims as [|n ns IH]; intros ix H; inversion H; subst; [cbn; lia|].
  cbn [pos volume fold_right]. fold (volume ns). specialize (IH _ H4). nia.
Qed.
Lemma pos_inj dims : forall ix jx, in_range dims ix -> in_range dims jx -> pos dims ix = pos dims jx -> ix = jx.
Proof.
  induction dims as [|n ns IH]; intros ix jx H H'; inversion H; inversion H'; subst; [reflexivity|].
  cbn [pos]. intros E. assert (A := pos_lt _ _ H4). assert (B := pos_lt _ _ H9).
  assert (x = x0) by nia. subst x0. f_equal. apply IH; [assumption..|lia].
Qed.
Lemma pos_onto dims : forall p, p < volume dims -> exists ix, in_range dims ix /\ pos dims ix = p.
Proof.
  induction dims as [|n ns IH]; intros p H; cbn [volume fold_right] in H; [exists []; split; [constructor|cbn; lia]|].
  fold (volume ns) in H. assert (V : volume ns <> 0) by nia.
  destruct (IH (p mod volume ns)) as (ix & R & E); [apply Nat.mod_upper_bound; assumption|].
  exists (p / volume ns :: ix). split.
  - constructor; [|assumption]. apply Nat.div_lt_upper_bound; lia.
  - cbn [pos]. rewrite E. rewrite (Nat.div_mod p (volume ns)) at 3 by assumption. lia.
Qed.
Lemma pos_mono dims : forall ix jx, in_range dims ix -> in_range dims jx -> before ix jx -> pos dims ix < pos dims jx.
Proof.
  induction dims as [|n ns IH]; intros ix jx H H' B; inversion H; inversion H'; subst; [inversion B|].
  cbn [pos]. assert (A := pos_lt _ _ H4). inversion B; subst.
  - nia.
  - specialize (IH _ _ H4 H9 H1). lia.
Qed.

Ltac dims_cases :=
  repeat match goal with
  | H : Forall2 lt _ (_ :: _) |- _ => inversion H; clear H; subst
  | H : Forall2 lt _ [] |- _ => inversion H; clear H; subst
  end.
Lemma call_pos dims ix : rank_ok dims -> in_range dims ix -> call_offset dims ix = pos dims ix.
Proof.
  intros R H. unfold rank_ok in R. unfold in_range in H.
  destruct dims as [|a [|b [|c [|d [|e [|f r]]]]]]; cbn [length] in R; try lia; dims_cases;
    cbn [call_offset pos volume fold_right]; unfold at2, at3, at4, at5; ring.
Qed.
Lemma bracket_pos dims ix : rank_ok dims -> in_range dims ix -> bracket_offset dims ix = pos dims ix.
Proof.
  intros R H. unfold rank_ok in R. unfold in_range in H.
  destruct dims as [|a [|b [|c [|d [|e [|f r]]]]]]; cbn [length] in R; try lia; dims_cases;
    cbn [bracket_offset sub_offset pos volume fold_right]; unfold sub2, sub3, sub4, sub5; ring.
Qed.
Lemma slice_pos dims ix i : 2 <= length dims <= 5 -> in_range dims (ix ++ [i]) ->
  slice_offset dims ix + i = pos dims (ix ++ [i]).
Proof.
  intros R H. assert (L := range_length _ _ H). rewrite app_length in L. unfold in_range in H.
  destruct dims as [|a [|b [|c [|d [|e [|f r]]]]]]; cbn [length] in R, L; try lia;
    destruct ix as [|x1 [|x2 [|x3 [|x4 [|x5 ix]]]]]; cbn [length] in L; try lia; cbn [app] in *; dims_cases;
    cbn [app slice_offset pos volume fold_right]; unfold slice2, slice3, slice4, slice5; ring.
Qed.
Lemma in_range_dec dims : forall ix, in_rangeb dims ix = true <-> in_range dims ix.
Proof.
  induction dims as [|n ns IH]; intros [|i is]; cbn [in_rangeb]; split; intros H; try discriminate; try (inversion H; fail).
  - constructor.
  - reflexivity.
  - apply andb_prop in H. destruct H as [A B]. apply Nat.ltb_lt in A. constructor; [assumption|apply IH; assumption].
  - inversion H; subst. apply andb_true_intro. split; [apply Nat.ltb_lt; assumption|apply IH; assumption].
Qed.
Lemma same_list_eq a : forall b, same_list a b = true <-> a = b.
Proof.
  induction a as [|x a IH]; intros [|y b]; cbn [same_list]; split; intros H; try discriminate; auto.
  - apply andb_prop in H. destruct H as [A B]. apply Nat.eqb_eq in A. apply IH in B. congruence.
  - inversion H; subst. rewrite Nat.eqb_refl. apply IH. reflexivity.
Qed.

(** ** multiNd *)
Lemma nd_elements_volume nz : nz <> [] -> nd_elements nz = Val (volume nz).
Proof.
  destruct nz as [|n ns]; [congruence|]. intros _. cbn [nd_elements]. f_equal.
  revert n. induction ns as [|m ns IH]; intros n; cbn [fold_left].
  - cbn. lia.
  - rewrite IH. cbn [volume fold_right]. fold (volume ns). ring.
Qed.
Lemma nd_packed_pos nz ix : nz <> [] -> in_range nz ix -> nd_packed nz ix = Val (pos nz ix).
Proof.
  intros N H. unfold nd_packed. rewrite (range_length _ _ H), Nat.eqb_refl. cbn [negb].
  assert (G : forall ns l, in_range ns l -> forall acc, fold_left (fun off p => off * fst p + snd p) (combine ns l) acc = acc * volume ns + pos ns l).
  { clear. induction ns as [|m ns IH]; intros l H acc; inversion H; subst; cbn [combine fold_left].
    - cbn. lia.
    - rewrite IH by assumption. cbn [fst snd pos volume fold_right]. fold (volume ns). ring. }
  destruct nz as [|n ns]; [congruence|]. inversion H; subst. rewrite G by assumption. reflexivity.
Qed.

(** ** Comparison *)
Section Cmp.
  Context {T : Type} (teq tlt tgt : T -> T -> bool) (O : total_order teq tlt tgt).
  Let P x y := tlt x y = true.
  Lemma eq_refl' x : teq x x = true. Proof. apply (to_eq _ _ _ O). reflexivity. Qed.
  Lemma lt_lex a : forall b, marr_lt teq tlt a b = true <-> lex P a b.
  Proof.
    induction a as [|x a IH]; intros [|y b].
    - split; intros H; [discriminate|inversion H].
    - split; intros; [constructor|reflexivity].
    - split; intros H; [discriminate|inversion H].
    - unfold marr_lt. cbn [combine find fst snd]. destruct (teq x y) eqn:E; cbn [negb].
      + apply (to_eq _ _ _ O) in E. subst y. specialize (IH b). unfold marr_lt in IH.
        cbn [length]. change (S (length a) =? S (length b)) with (length a =? length b).
        change (S (length a) <? S (length b)) with (length a <? length b).
        rewrite IH. split; intros H; [apply lex_tail; assumption|inversion H; subst].
        * unfold P in H1. rewrite (to_irrefl _ _ _ O) in H1. discriminate.
        * assumption.
      + split; intros H; [apply lex_head; assumption|]. inversion H; subst; [assumption|].
        rewrite eq_refl' in E. discriminate.
  Qed.
  Lemma gt_lt a b : marr_gt teq tgt a b = marr_lt teq tlt b a.
  Proof.
    unfold marr_gt, marr_lt.
    assert (F : find (fun p => negb (teq (fst p) (snd p))) (combine b a) =
                option_map (fun p => (snd p, fst p)) (find (fun p => negb (teq (fst p) (snd p))) (combine a b))).
    { revert b. induction a as [|x a IH]; intros [|y b]; cbn [combine find]; try reflexivity. cbn [fst snd].
      assert (S : teq y x = teq x y).
      { destruct (teq x y) eqn:E.
        - apply (to_eq _ _ _ O) in E. subst. apply eq_refl'.
        - destruct (teq y x) eqn:E2; [|reflexivity]. apply (to_eq _ _ _ O) in E2. subst. rewrite eq_refl' in E. discriminate. }
      rewrite S. destruct (negb (teq x y)); [reflexivity|apply IH]. }
    rewrite F. destruct (find _ (combine a b)) as [[x y]|]; cbn [option_map fst snd].
    - apply (to_gt _ _ _ O).
    - rewrite (Nat.eqb_sym (length b)). reflexivity.
  Qed.
  Lemma eq_list a : forall b, marr_eq teq a b = true <-> a = b /\ a <> [].
  Proof.
    intros b. unfold marr_eq. destruct a as [|x a].
    - cbn. split; [discriminate|intros [_ H]; congruence].
    - change (length (x :: a) =? 0) with false. cbn [orb].
      destruct (length (x :: a) =? length b) eqn:L; cbn [negb].
      + apply Nat.eqb_eq in L. revert L. generalize (x :: a) at 1 2 3 as c. intros c L.
        assert (G : forallb (fun p => teq (snd p) (fst p)) (combine c b) = true <-> c = b).
        { revert b L. induction c as [|u c IH]; intros [|v b] L; cbn [length] in L; try discriminate; cbn [combine forallb fst snd].
          - tauto.
          - rewrite andb_true_iff, IH by congruence. rewrite (to_eq _ _ _ O). split; [intros [A B]; congruence|intros H; inversion H; auto]. }
        rewrite G. split; [intros H; split; [assumption|discriminate]|tauto].
      + apply Nat.eqb_neq in L. split; [discriminate|intros [H _]; subst; congruence].
  Qed.
  Lemma lex_total a : forall b, a = b \/ lex P a b \/ lex P b a.
  Proof.
    induction a as [|x a IH]; intros [|y b]; [auto|right; left; constructor|right; right; constructor|].
    destruct (teq x y) eqn:E.
    - apply (to_eq _ _ _ O) in E. subst y. destruct (IH b) as [->|[H|H]]; [auto|right; left; apply lex_tail; assumption|right; right; apply lex_tail; assumption].
    - right. destruct (to_total _ _ _ O x y) as [H|H]; [intros ->; rewrite eq_refl' in E; discriminate|left|right]; apply lex_head; assumption.
  Qed.
  Lemma lex_irrefl a : ~ lex P a a.
  Proof.
    induction a as [|x a IH]; intros H; inversion H; subst; [|auto].
    unfold P in H1. rewrite (to_irrefl _ _ _ O) in H1. discriminate.
  Qed.
  Lemma lex_trans a b c : lex P a b -> lex P b c -> lex P a c.
  Proof.
    intros H. revert c. induction H; intros c H'; inversion H'; subst; try (constructor; fail).
    - apply lex_head. unfold P in *. eapply (to_trans _ _ _ O); eassumption.
    - apply lex_head. assumption.
    - apply lex_head. assumption.
    - apply lex_tail. auto.
  Qed.
End Cmp.

Lemma set_nth_app {A} n (a : A) l1 x l2 : length l1 = n -> set_nth n a (l1 ++ x :: l2) = l1 ++ a :: l2.
Proof.
  intros L. unfold set_nth. subst n. rewrite firstn_app, firstn_all, Nat.sub_diag. cbn [firstn]. rewrite app_nil_r.
  f_equal. f_equal. rewrite skipn_app, skipn_all2 by lia. replace (S (length l1) - length l1) with 1 by lia. reflexivity.
Qed.
Lemma concat_app {T} (d : T) l r : marr_concat d l r = l ++ r.
Proof.
  unfold marr_concat.
  assert (G : forall r done rest n, length done = n -> length rest = length r ->
     forall tail, fold_left (fun (p : list T * nat) x => (set_nth (snd p) x (fst p), S (snd p))) r (done ++ rest ++ tail, n) = (done ++ r ++ tail, n + length r)).
  { induction r0 as [|x r0 IH]; intros done rest n L L2 tail.
    - destruct rest; [|discriminate]. cbn. f_equal. lia.
    - destruct rest as [|y rest]; [discriminate|]. cbn [length] in L2. injection L2 as L2.
      cbn [fold_left fst snd app]. rewrite set_nth_app by assumption.
      replace (done ++ x :: rest ++ tail) with ((done ++ [x]) ++ rest ++ tail) by (rewrite <- app_assoc; reflexivity).
      rewrite (IH (done ++ [x])).
      + rewrite <- app_assoc. cbn. f_equal. lia.
      + rewrite app_length. cbn. lia.
      + assumption. }
  rewrite repeat_app.
  replace (repeat d (length l) ++ repeat d (length r)) with ([] ++ repeat d (length l) ++ repeat d (length r)) by reflexivity.
  rewrite G by (rewrite ?repeat_length; reflexivity).
  replace ([] ++ l ++ repeat d (length r)) with (l ++ repeat d (length r) ++ []) by (rewrite app_nil_r; reflexivity).
  rewrite G by (rewrite ?repeat_length; reflexivity). cbn [fst]. rewrite app_nil_r. reflexivity.
Qed.

(** ** Memory *)
Lemma list_ext {A} (l m : list A) : (forall k, nth_error l k = nth_error m k) -> l = m.
Proof.
  revert m. induction l as [|x l IH]; intros [|y m] H; [reflexivity|discriminate (H 0)|discriminate (H 0)|].
  f_equal; [now injection (H 0)|]. apply IH. intros k. exact (H (S k)).
Qed.
Lemma nth_set {A} n (a : A) l k : n < length l -> nth_error (set_nth n a l) k = if k =? n then Some a else nth_error l k.
Proof.
  intros L. unfold set_nth. destruct (Nat.eqb_spec k n) as [->|N].
  - rewrite nth_error_app2; rewrite firstn_length_le by lia; [|lia]. rewrite Nat.sub_diag. reflexivity.
  - destruct (Nat.lt_ge_cases k n).
    + rewrite nth_error_app1 by (rewrite firstn_length_le; lia).
      revert n l L H N. induction k as [|k IH]; intros n l L H N; destruct n, l; cbn [length] in *; try lia; [reflexivity|]. cbn. apply IH; lia.
    + rewrite nth_error_app2; rewrite firstn_length_le by lia; [|lia]. destruct (k - n) as [|d] eqn:E; [lia|]. cbn [nth_error].
      replace k with (S n + d) by lia. clear. revert l. induction n as [|n IH]; intros [|x l]; cbn; try reflexivity.
      * now destruct d.
      * now destruct d.
      * apply IH.
Qed.
Lemma set_nth_length {A} n (a : A) l : n < length l -> length (set_nth n a l) = length l.
Proof. intros. unfold set_nth. rewrite app_length, firstn_length_le by lia. cbn [length]. rewrite skipn_length. lia. Qed.
Lemma nth_some_lt {A} (l : list A) k a : nth_error l k = Some a -> k < length l.
Proof. intros H. apply nth_error_Some. congruence. Qed.
Lemma set_set {A} n (a b : A) l : n < length l -> set_nth n a (set_nth n b l) = set_nth n a l.
Proof.
  intros L. apply list_ext. intros k. rewrite !nth_set by (rewrite ?set_nth_length; lia). destruct (k =? n); reflexivity.
Qed.
Lemma set_same {A} n (a : A) l : nth_error l n = Some a -> set_nth n a l = l.
Proof.
  intros H. apply list_ext. intros k. rewrite nth_set by (eapply nth_some_lt; eassumption).
  destruct (Nat.eqb_spec k n) as [->|]; congruence.
Qed.

Section Mapi.
  Context {A : Type}.
  Fixpoint mapi (k : nat) (f : nat -> A -> A) (l : list A) : list A :=
    match l with [] => [] | x :: l => f k x :: mapi (S k) f l end.
  Lemma mapi_nth f l : forall k i, nth_error (mapi k f l) i = option_map (f (k + i)) (nth_error l i).
  Proof.
    induction l as [|x l IH]; intros k [|i]; cbn; try reflexivity.
    - now rewrite Nat.add_0_r.
    - rewrite IH. now rewrite Nat.add_succ_r.
  Qed.
  Lemma mapi_length f l : forall k, length (mapi k f l) = length l.
  Proof. induction l; intros; cbn; congruence. Qed.
End Mapi.

Section Loop.
  Context {T : Type}.
  Implicit Type h : heap T.
  (** the cells o+from .. o+from+n-1 changed by g *)
  Definition mix (o n : nat) (g : nat -> option T -> option T) (l : list (option T)) : list (option T) :=
    mapi 0 (fun k c => if (o <=? k) && (k <? o + n) then g (k - o) c else c) l.
  Lemma mix_nth o n g l k : nth_error (mix o n g l) k =
    option_map (fun c => if (o <=? k) && (k <? o + n) then g (k - o) c else c) (nth_error l k).
  Proof. unfold mix. rewrite mapi_nth. reflexivity. Qed.
  Lemma mix_length o n g l : length (mix o n g l) = length l. Proof. apply mapi_length. Qed.
  Lemma mix_0 o g l : mix o 0 g l = l.
  Proof.
    apply list_ext. intros k. rewrite mix_nth.
    replace ((o <=? k) && (k <? o + 0)) with false; [destruct (nth_error l k); reflexivity|].
    destruct (Nat.leb_spec o k), (Nat.ltb_spec k (o + 0)); try reflexivity; lia.
  Qed.
  Lemma mix_S o n g l c : nth_error l (o + n) = Some c ->
    mix o (S n) g l = set_nth (o + n) (g n c) (mix o n g l).
  Proof.
    intros H. apply list_ext. intros k. rewrite nth_set by (rewrite mix_length; eapply nth_some_lt; eassumption).
    rewrite !mix_nth. destruct (Nat.eqb_spec k (o + n)) as [->|N].
    - rewrite H. cbn [option_map]. replace (o + n - o) with n by lia.
      replace ((o <=? o + n) && (o + n <? o + S n)) with true; [reflexivity|].
      symmetry. apply andb_true_intro. split; [apply Nat.leb_le|apply Nat.ltb_lt]; lia.
    - destruct (nth_error l k); [|reflexivity]. cbn [option_map]. f_equal.
      replace (k <? o + S n) with (k <? o + n); [reflexivity|].
      destruct (Nat.ltb_spec k (o + n)), (Nat.ltb_spec k (o + S n)); try reflexivity; lia.
  Qed.
  Lemma loop_ok b o n g l h body :
    nth_error h b = Some (Some l) -> o + n <= length l ->
    (forall i c, i < n -> nth_error l (o + i) = Some c ->
       body i (set_nth b (Some (mix o i g l)) h) =
       Val (set_nth b (Some (set_nth (o + i) (g i c) (mix o i g l))) h)) ->
    for_loop n 0 body h = Val (set_nth b (Some (mix o n g l)) h).
  Proof.
    intros B L H.
    assert (G : forall m i, i + m = n -> for_loop m i body (set_nth b (Some (mix o i g l)) h) = Val (set_nth b (Some (mix o n g l)) h)).
    { induction m as [|m IH]; intros i E; cbn [for_loop].
      - replace i with n by lia. reflexivity.
      - destruct (nth_error l (o + i)) as [c|] eqn:C; [|apply nth_error_None in C; lia].
        rewrite (H i c) by (assumption || lia). cbn [bind]. rewrite <- (mix_S o i g l c C). apply IH. lia. }
    specialize (G n 0 eq_refl). rewrite mix_0 in G. rewrite (set_same b (Some l) h B) in G. exact G.
  Qed.
  Lemma load_ok b o i h l c : nth_error h b = Some (Some l) -> nth_error l (o + i) = Some c -> load (Some (b, o)) i h = Val c.
  Proof. intros B C. cbn. rewrite B, C. reflexivity. Qed.
  Lemma store_ok b o i v h l : nth_error h b = Some (Some l) -> o + i < length l ->
    store (Some (b, o)) i v h = Val (set_nth b (Some (set_nth (o + i) v l)) h).
  Proof. intros B C. unfold store. rewrite B. apply Nat.ltb_lt in C. rewrite C. reflexivity. Qed.
  (** one turn of a loop that stores g i c at cell i *)
  Lemma turn_store b o i v g c h l n :
    nth_error h b = Some (Some l) -> nth_error l (o + i) = Some c -> o + n <= length l -> v = g i c -> i < n ->
    store (Some (b, o)) i v (set_nth b (Some (mix o i g l)) h) =
    Val (set_nth b (Some (set_nth (o + i) (g i c) (mix o i g l))) h).
  Proof.
    intros B C L -> I. assert (Hb := nth_some_lt _ _ _ B).
    rewrite (store_ok b o i _ _ (mix o i g l)).
    - rewrite set_set by assumption. reflexivity.
    - rewrite nth_set by assumption. rewrite Nat.eqb_refl. reflexivity.
    - rewrite mix_length. lia.
  Qed.
  Lemma turn_load_same b o i g c h l :
    nth_error h b = Some (Some l) -> nth_error l (o + i) = Some c ->
    load (Some (b, o)) i (set_nth b (Some (mix o i g l)) h) = Val c.
  Proof.
    intros B C. assert (Hb := nth_some_lt _ _ _ B). apply (load_ok b o i _ (mix o i g l)).
    - rewrite nth_set by assumption. rewrite Nat.eqb_refl. reflexivity.
    - rewrite mix_nth, C. cbn [option_map].
      replace ((o <=? o + i) && (o + i <? o + i)) with false; [reflexivity|].
      rewrite Nat.ltb_irrefl. now rewrite andb_false_r.
  Qed.
  Lemma turn_load_other b b' o' i h l l' c :
    b' <> b -> nth_error h b = Some (Some l) -> nth_error h b' = Some (Some l') -> nth_error l' (o' + i) = Some c ->
    forall m, load (Some (b', o')) i (set_nth b (Some m) h) = Val c.
  Proof.
    intros N B B' C m. assert (Hb := nth_some_lt _ _ _ B). apply (load_ok b' o' i _ l'); [|assumption].
    rewrite nth_set by assumption. destruct (Nat.eqb_spec b' b); [contradiction|assumption].
  Qed.
End Loop.

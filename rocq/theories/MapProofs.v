(** Lemmas about maps. *)
From Coq Require Import List Arith ZArith Bool Lia Permutation.
From Coq Require Import ZifyBool ZifyNat.
From Verif Require Import Base LayoutModel LayoutSpec LayoutProofs LayoutOk MapModel MapSpec SetProofs.
Import ListNotations.
Local Open Scope nat_scope.
Ltac Zify.zify_post_hook ::= Z.div_mod_to_equations.

(** ** mapM, lists *)
Lemma mapM_exists {A B} (f : A -> res B) (P : A -> B -> Prop) l :
  (forall a, In a l -> exists b, f a = Val b /\ P a b) ->
  exists bs, mapM f l = Val bs /\ Forall2 P l bs.
Proof.
  induction l as [|a l IH]; intros H.
  - exists []. split; [reflexivity|constructor].
  - destruct (H a (or_introl eq_refl)) as (b & Eb & Pb).
    destruct IH as (bs & E & F); [intros; apply H; right; assumption|].
    exists (b :: bs). cbn [mapM]. rewrite Eb. cbn [bind]. rewrite E. split; [reflexivity|].
    constructor; assumption.
Qed.

Lemma Forall2_nth {A B} (P : A -> B -> Prop) l bs k a :
  Forall2 P l bs -> nth_error l k = Some a -> exists b, nth_error bs k = Some b /\ P a b.
Proof.
  intros F. revert k. induction F as [|x y l l' Hxy F IH]; intros [|k] H; try discriminate.
  - injection H as <-. exists y. auto.
  - apply IH. exact H.
Qed.

Lemma nth_error_seq n k : k < n -> nth_error (seq 0 n) k = Some k.
Proof. intros H. rewrite (nth_error_nth' _ 0) by (rewrite seq_length; exact H). rewrite seq_nth by exact H. reflexivity. Qed.

Lemma stored_length {T} lay (phi : list nat -> T) q : length (stored lay phi q) = l_sites lay.
Proof. unfold stored. rewrite map_length, seq_length. reflexivity. Qed.

Lemma stored_nth {T} lay (phi : list nat -> T) q i : i < l_sites lay ->
  nth_error (stored lay phi q) i = Some (phi (l_coord lay q i)).
Proof.
  intros H. unfold stored. rewrite nth_error_map_seq.
  apply Nat.ltb_lt in H. rewrite H. reflexivity.
Qed.

Lemma stored_all_nth {T} lay (phi : list nat -> T) q : q < l_nodes lay ->
  nth_error (stored_all lay phi) q = Some (stored lay phi q).
Proof.
  intros H. unfold stored_all. rewrite nth_error_map_seq.
  apply Nat.ltb_lt in H. rewrite H. reflexivity.
Qed.

(** ** uniquify_list *)
Lemma existsb_eqb x d : existsb (fun y => y =? x) d = true <-> In x d.
Proof.
  rewrite existsb_exists. split.
  - intros (y & H & E). apply Nat.eqb_eq in E. congruence.
  - intros H. exists x. split; [exact H|apply Nat.eqb_refl].
Qed.

Definition notin (d : list nat) (y : nat) : bool := negb (existsb (fun x => x =? y) d).

Lemma filter_filter {A} (P Q : A -> bool) l :
  filter P (filter Q l) = filter (fun x => Q x && P x) l.
Proof.
  induction l as [|x l IH]; [reflexivity|]. cbn [filter].
  destruct (Q x) eqn:EQ; cbn [filter andb]; [|exact IH].
  destruct (P x); rewrite IH; reflexivity.
Qed.

Lemma uniq_loop_eq ll : forall d prev, In prev d ->
  uniq_loop d prev ll = d ++ filter (notin d) (dedupe ll).
Proof.
  induction ll as [|x ll IH]; intros d prev Hp; cbn [uniq_loop dedupe filter].
  - rewrite app_nil_r. reflexivity.
  - assert (F : forall d', In x d' ->
      filter (notin d') (filter (fun y => negb (y =? x)) (dedupe ll)) =
      filter (notin d') (dedupe ll)).
    { intros d' Hx. rewrite filter_filter. apply filter_ext. intros y.
      destruct (Nat.eq_dec y x) as [->|Hn].
      - rewrite Nat.eqb_refl. cbn. unfold notin. symmetry. apply negb_false_iff.
        apply existsb_eqb. exact Hx.
      - apply Nat.eqb_neq in Hn. rewrite Hn. reflexivity. }
    destruct (existsb (fun y => y =? x) d) eqn:E.
    + assert (Hx : In x d) by (apply existsb_eqb; exact E).
      assert (Hd : (if negb (x =? prev) then d else d) = d) by (destruct (negb _); reflexivity).
      rewrite Hd. rewrite IH by exact Hx. f_equal. unfold notin at 2. rewrite E. cbn [negb].
      rewrite F by exact Hx. reflexivity.
    + assert (Hne : x <> prev).
      { intros ->. assert (existsb (fun y => y =? prev) d = true) by (apply existsb_eqb; exact Hp).
        congruence. }
      apply Nat.eqb_neq in Hne. rewrite Hne. cbn [negb].
      rewrite IH by (apply in_app_iff; right; left; reflexivity).
      unfold notin at 2. rewrite E. cbn [negb]. rewrite <- app_assoc. cbn [app]. f_equal. f_equal.
      rewrite filter_filter. apply filter_ext. intros y. unfold notin. rewrite existsb_app.
      cbn [existsb]. rewrite (Nat.eqb_sym y x).
      destruct (existsb (fun z => z =? y) d), (x =? y); reflexivity.
Qed.

Lemma uniquify_list_eq ll : ll <> [] -> uniquify_list ll = Val (dedupe ll).
Proof.
  destruct ll as [|x ll]; [congruence|]. intros _. cbn [uniquify_list dedupe]. f_equal.
  rewrite uniq_loop_eq by (left; reflexivity). cbn [app]. f_equal. apply filter_ext. intros y.
  unfold notin. cbn [existsb]. rewrite orb_false_r, (Nat.eqb_sym x y). reflexivity.
Qed.

Lemma dedupe_In l x : In x (dedupe l) <-> In x l.
Proof.
  induction l as [|y l IH]; cbn [dedupe In]; [tauto|]. rewrite filter_In, IH.
  destruct (Nat.eq_dec x y) as [->|H]; [tauto|].
  apply Nat.eqb_neq in H as E. rewrite E. cbn. intuition.
Qed.

Lemma dedupe_NoDup l : NoDup (dedupe l).
Proof.
  induction l as [|y l IH]; cbn [dedupe]; constructor.
  - rewrite filter_In, Nat.eqb_refl. cbn. intuition discriminate.
  - apply NoDup_filter. exact IH.
Qed.

(** ** Layout facts *)
Section Lay.
  Variable lay : layout.
  Hypothesis Hlay : layout_ok lay.

  Lemma lay_in q i : q < l_nodes lay -> i < l_sites lay -> in_lattice (l_size lay) (l_coord lay q i).
  Proof. intros Hq Hi. apply (coord_length lay q i); auto. Qed.

  Lemma lay_inv q i : q < l_nodes lay -> i < l_sites lay ->
    l_node lay (l_coord lay q i) = q /\ l_lin lay (l_coord lay q i) = i.
  Proof.
    intros Hq Hi. destruct Hlay as (_ & _ & _ & Hb).
    destruct (Hb (q, i) (conj Hq Hi)) as [_ E]. cbn in E. split; congruence.
  Qed.

  Lemma lay_fwd c : in_lattice (l_size lay) c ->
    l_node lay c < l_nodes lay /\ l_lin lay c < l_sites lay /\
    l_coord lay (l_node lay c) (l_lin lay c) = c.
  Proof.
    intros Hc. destruct Hlay as (_ & _ & Ha & _). destruct (Ha c Hc) as [[H1 H2] E].
    cbn in *. auto.
  Qed.

  Lemma lay_sites_pos : 0 < l_sites lay.
  Proof.
    destruct Hlay as (H0 & Hp & _).
    assert (H : in_lattice (l_size lay) (repeat 0 (length (l_size lay)))).
    { apply in_lattice_get. split; [apply repeat_length|]. intros i Hi.
      unfold get. rewrite nth_repeat. apply Hp. exact Hi. }
    apply lay_fwd in H. lia.
  Qed.

  (** ** Single-process maps *)
  Lemma map_apply1_ok {T} (phi : list nat -> T) (f : mapfunc) :
    l_nodes lay = 1 -> site_map (l_size lay) (fun c => f c 1%Z) ->
    map_apply1 (map_make1 lay f) (stored lay phi 0) = Val (stored lay (fun c => phi (f c 1%Z)) 0).
  Proof.
    intros H1 Hf. unfold map_apply1. rewrite stored_length. unfold stored at 2.
    apply mapM_Val. intros i Hi. apply in_seq in Hi. unfold map_make1.
    rewrite nth_error_map_seq. destruct (i <? l_sites lay) eqn:E; [|lia].
    cbn [of_option bind].
    pose proof (lay_in 0 i ltac:(lia) ltac:(lia)) as Hin.
    destruct (lay_fwd _ (Hf _ Hin)) as (A & B & C).
    assert (E0 : l_node lay (f (l_coord lay 0 i) 1%Z) = 0) by lia. rewrite E0 in C.
    rewrite stored_nth by exact B. rewrite C. reflexivity.
  Qed.
End Lay.

(** ** Counting *)
Lemma count_bij (S : nat) (P Q : nat -> bool) (f g : nat -> nat) :
  (forall i, i < S -> P i = true -> f i < S /\ Q (f i) = true /\ g (f i) = i) ->
  (forall j, j < S -> Q j = true -> g j < S /\ P (g j) = true /\ f (g j) = j) ->
  length (filter P (seq 0 S)) = length (filter Q (seq 0 S)).
Proof.
  intros Hf Hg. rewrite <- (map_length f). apply Permutation_length.
  apply NoDup_Permutation.
  - apply (NoDup_map_inv g). rewrite map_map.
    rewrite (map_ext_in _ (fun x => x)).
    + rewrite map_id. apply NoDup_filter, seq_NoDup.
    + intros i Hi. apply filter_In in Hi as [Hi HP]. apply in_seq in Hi.
      apply (Hf i); [lia|exact HP].
  - apply NoDup_filter, seq_NoDup.
  - intros y. rewrite in_map_iff. split.
    + intros (x & <- & Hx). apply filter_In in Hx as [Hi HP]. apply in_seq in Hi.
      destruct (Hf x) as (A & B & _); [lia|exact HP|].
      apply filter_In. split; [apply in_seq; lia|exact B].
    + intros Hy. apply filter_In in Hy as [Hi HQ]. apply in_seq in Hi.
      destruct (Hg y) as (A & B & C); [lia|exact HQ|].
      exists (g y). split; [exact C|]. apply filter_In. split; [apply in_seq; lia|exact B].
Qed.

Lemma count_nodes_one me p l : p <> me ->
  count_nodes me [p] l = [length (filter (fun x => x =? p) l)].
Proof.
  intros Hp. unfold count_nodes. cbn [length repeat].
  assert (G : forall c,
    fold_left (fun num this_node =>
       if negb (this_node =? me) then
         (fix bump (nodes num : list nat) : list nat :=
            match nodes, num with
            | n :: nodes', c :: num' =>
                if n =? this_node then S c :: num' else c :: bump nodes' num'
            | _, _ => num
            end) [p] num
       else num) l [c] = [c + length (filter (fun x => x =? p) l)]).
  { induction l as [|x l IH]; intros c; cbn [fold_left filter].
    - cbn [length]. rewrite Nat.add_0_r. reflexivity.
    - rewrite (Nat.eqb_sym p x). destruct (x =? p) eqn:E1.
      + destruct (x =? me) eqn:E2.
        * apply Nat.eqb_eq in E1, E2. congruence.
        * cbn [negb]. rewrite IH. cbn [length]. f_equal. lia.
      + destruct (x =? me); cbn [negb]; rewrite IH; reflexivity. }
  rewrite G. reflexivity.
Qed.

Lemma filter_map_length {A} (g : A -> nat) (P : nat -> bool) l :
  length (filter P (map g l)) = length (filter (fun i => P (g i)) l).
Proof.
  induction l as [|x l IH]; [reflexivity|]. cbn [map filter]. destruct (P (g x)); cbn [length]; lia.
Qed.

Lemma collect_gen {A} (P : nat -> bool) (g : nat -> A) l acc :
  fold_left (fun acc i => if P i then acc ++ [g i] else acc) l acc = acc ++ map g (filter P l).
Proof.
  revert acc. induction l as [|x l IH]; intros acc; cbn [fold_left filter].
  - rewrite app_nil_r. reflexivity.
  - rewrite IH. destruct (P x); [|reflexivity]. rewrite <- app_assoc. reflexivity.
Qed.

Lemma single l (p : nat) : NoDup l -> In p l -> (forall x, In x l -> x = p) -> l = [p].
Proof.
  intros ND Hin H. destruct l as [|x l]; [destruct Hin|].
  assert (x = p) by (apply H; left; reflexivity). subst x. f_equal.
  destruct l as [|y l]; [reflexivity|]. exfalso.
  assert (y = p) by (apply H; right; left; reflexivity). subst y.
  inversion ND. subst. apply H2. left. reflexivity.
Qed.

(** ** Multi-node maps *)
Section Par.
  Variables (lay : layout) (f : mapfunc).
  Hypothesis Hlay : layout_ok lay.
  Let fwd c := f c 1%Z.
  Let bwd c := f c (-1)%Z.
  Hypothesis Hperm : site_permutation (l_size lay) fwd bwd.
  Hypothesis H1f : one_partner lay fwd.
  Hypothesis H1b : one_partner lay bwd.

  Let src q i := l_node lay (fwd (l_coord lay q i)).
  Let dst q i := l_node lay (bwd (l_coord lay q i)).
  Let NS := l_sites lay.

  Lemma count_exchange p q : p < l_nodes lay -> q < l_nodes lay ->
    length (filter (fun i => dst q i =? p) (seq 0 NS)) =
    length (filter (fun j => src p j =? q) (seq 0 NS)).
  Proof.
    clear H1f H1b. intros Hp Hq.
    apply (count_bij NS _ _ (fun i => l_lin lay (bwd (l_coord lay q i)))
                         (fun j => l_lin lay (fwd (l_coord lay p j)))).
    - intros i Hi E. apply Nat.eqb_eq in E. unfold dst in E.
      pose proof (lay_in lay Hlay q i Hq Hi) as Hc. destruct Hperm as [_ Pb].
      destruct (Pb _ Hc) as [Hb Efb]. destruct (lay_fwd lay Hlay _ Hb) as (A & B & C).
      rewrite E in C. unfold src. rewrite C, Efb.
      destruct (lay_inv lay Hlay q i Hq Hi) as [-> ->]. rewrite Nat.eqb_refl. auto.
    - intros j Hj E. apply Nat.eqb_eq in E. unfold src in E.
      pose proof (lay_in lay Hlay p j Hp Hj) as Hc. destruct Hperm as [Pf _].
      destruct (Pf _ Hc) as [Hb Efb]. destruct (lay_fwd lay Hlay _ Hb) as (A & B & C).
      rewrite E in C. unfold dst. rewrite C, Efb.
      destruct (lay_inv lay Hlay p j Hp Hj) as [-> ->]. rewrite Nat.eqb_refl. auto.
  Qed.

  Lemma filter_neg_length {A} (P : A -> bool) l :
    length (filter P l) + length (filter (fun x => negb (P x)) l) = length l.
  Proof. clear. induction l as [|x l IH]; [reflexivity|]. cbn [filter]. destruct (P x); cbn [length negb]; lia. Qed.

  Lemma off_both q : q < l_nodes lay ->
    (exists i, i < NS /\ src q i <> q) <-> (exists i, i < NS /\ dst q i <> q).
  Proof.
    clear H1f H1b. intros Hq. pose proof (count_exchange q q Hq Hq) as E.
    pose proof (filter_neg_length (fun i => dst q i =? q) (seq 0 NS)) as N1.
    pose proof (filter_neg_length (fun i => src q i =? q) (seq 0 NS)) as N2.
    assert (G : forall g : nat -> nat, (exists i, i < NS /\ g i <> q) <->
                length (filter (fun x => negb (g x =? q)) (seq 0 NS)) <> 0).
    { intros g. split.
      - intros (i & Hi & Hg) Hz. apply length_zero_iff_nil in Hz.
        assert (In i (filter (fun x => negb (g x =? q)) (seq 0 NS))) as Hin.
        { apply filter_In. split; [apply in_seq; lia|]. apply Nat.eqb_neq in Hg. rewrite Hg. reflexivity. }
        rewrite Hz in Hin. destruct Hin.
      - intros Hz. destruct (filter (fun x => negb (g x =? q)) (seq 0 NS)) as [|i l] eqn:El; [cbn in Hz; lia|].
        assert (In i (i :: l)) as Hin by (left; reflexivity). rewrite <- El in Hin.
        apply filter_In in Hin as [Hi Hn]. apply in_seq in Hi. exists i. split; [lia|].
        destruct (g i =? q) eqn:Eg; [discriminate|]. apply Nat.eqb_neq in Eg. exact Eg. }
    rewrite (G (src q)), (G (dst q)). lia.
  Qed.

  (** The map object built on node [q]. *)
  Definition map_spec (q : nat) (m : pmap) : Prop :=
    goffsets m = map (fun i => l_lin lay (fwd (l_coord lay q i))) (seq 0 NS) /\
    srcnode m = map (src q) (seq 0 NS) /\
    ((offnodeP m = false /\ forall i, i < NS -> src q i = q) \/
     (offnodeP m = true /\ exists p d,
        p <> q /\ d <> q /\ p < l_nodes lay /\ d < l_nodes lay /\
        srcenodes m = [p] /\ destnodes m = [d] /\
        srcenodes_num m = [length (filter (fun i => src q i =? p) (seq 0 NS))] /\
        destnodes_num m = [length (filter (fun i => dst q i =? d) (seq 0 NS))] /\
        soffsets m = map (fun i => Some (l_lin lay (fwd (l_coord lay d i))))
                         (filter (fun i => src d i =? q) (seq 0 NS)) /\
        (forall i, i < NS -> src q i <> q -> src q i = p) /\ (exists i, i < NS /\ src q i = p) /\
        (forall i, i < NS -> dst q i <> q -> dst q i = d) /\ (exists i, i < NS /\ dst q i = d))).

  Lemma filter_none {A} (P : A -> bool) l : (forall x, In x l -> P x = false) -> filter P l = [].
  Proof.
    clear. induction l as [|x l IH]; intros H; [reflexivity|]. cbn [filter].
    rewrite H by (left; reflexivity). apply IH. intros; apply H; right; assumption.
  Qed.

  Lemma off_list (g : nat -> nat) q p : p <> q ->
    (exists i, i < NS /\ g i = p) -> (forall i, i < NS -> g i <> q -> g i = p) ->
    filter (fun n => negb (n =? q)) (dedupe (map g (seq 0 NS))) = [p].
  Proof.
    clear. intros Hpq (i & Hi & Ei) H. apply single.
    - apply NoDup_filter, dedupe_NoDup.
    - apply filter_In. rewrite dedupe_In. split.
      + apply in_map_iff. exists i. split; [exact Ei|apply in_seq; lia].
      + apply Nat.eqb_neq in Hpq. rewrite Hpq. reflexivity.
    - intros x Hx. apply filter_In in Hx as [Hx Hn]. rewrite dedupe_In in Hx.
      apply in_map_iff in Hx as (j & <- & Hj). apply in_seq in Hj. apply H; [lia|].
      intros E. rewrite E, Nat.eqb_refl in Hn. discriminate.
  Qed.

  Lemma on_list (g : nat -> nat) q : (forall i, i < NS -> g i = q) ->
    filter (fun n => negb (n =? q)) (dedupe (map g (seq 0 NS))) = [].
  Proof.
    clear. intros H. apply filter_none. intros x Hx. rewrite dedupe_In in Hx.
    apply in_map_iff in Hx as (j & <- & Hj). apply in_seq in Hj. rewrite H by lia.
    rewrite Nat.eqb_refl. reflexivity.
  Qed.

  Lemma on_or_off (g : nat -> nat) q :
    (forall i, i < NS -> g i = q) \/ (exists i, i < NS /\ g i <> q).
  Proof.
    clear. generalize NS as n0; intros n0; induction n0 as [|n IH]; [left; lia|].
    destruct IH as [H|(i & Hi & E)]; [|right; exists i; split; [lia|exact E]].
    destruct (Nat.eq_dec (g n) q) as [E|E].
    - left. intros i Hi. destruct (Nat.eq_dec i n) as [->|]; [exact E|apply H; lia].
    - right. exists n. split; [lia|exact E].
  Qed.

  Lemma make_ok q : q < l_nodes lay -> exists m, map_makeP lay f q = Val m /\ map_spec q m.
  Proof.
    intros Hq. unfold map_makeP.
    change (map (fun linear => l_node lay (f (l_coord lay q linear) 1%Z)) (seq 0 (l_sites lay)))
      with (map (src q) (seq 0 NS)).
    change (map (fun linear => l_node lay (f (l_coord lay q linear) (-1)%Z)) (seq 0 (l_sites lay)))
      with (map (dst q) (seq 0 NS)).
    assert (HS : 0 < NS) by (apply lay_sites_pos; exact Hlay).
    assert (Hne : forall g : nat -> nat, map g (seq 0 NS) <> []).
    { intros g E. apply (f_equal (@length nat)) in E. rewrite map_length, seq_length in E. cbn in E. lia. }
    rewrite !uniquify_list_eq by apply Hne. cbn [bind].
    destruct (on_or_off (src q) q) as [Hon|Hoff].
    - assert (Hond : forall i, i < NS -> dst q i = q).
      { destruct (on_or_off (dst q) q) as [H|H]; [exact H|]. apply off_both in H; [|exact Hq].
        destruct H as (i & Hi & E). exfalso. apply E, Hon, Hi. }
      rewrite (on_list (src q) q Hon), (on_list (dst q) q Hond). cbn.
      eexists. split; [reflexivity|]. split; [reflexivity|]. split; [reflexivity|].
      left. split; [reflexivity|exact Hon].
    - assert (Hoffd : exists i, i < NS /\ dst q i <> q) by (apply off_both; assumption).
      destruct Hoff as (i0 & Hi0 & E0). destruct Hoffd as (j0 & Hj0 & F0).
      set (p := src q i0) in *. set (d := dst q j0) in *.
      assert (Hsrc : forall i, i < NS -> src q i <> q -> src q i = p).
      { intros i Hi Hn. unfold p, src in *.
        destruct (lay_inv lay Hlay q i Hq Hi) as [Ni _].
        destruct (lay_inv lay Hlay q i0 Hq Hi0) as [Ni0 _].
        apply H1f; try (apply lay_in; assumption); congruence. }
      assert (Hdst : forall i, i < NS -> dst q i <> q -> dst q i = d).
      { intros i Hi Hn. unfold d, dst in *.
        destruct (lay_inv lay Hlay q i Hq Hi) as [Ni _].
        destruct (lay_inv lay Hlay q j0 Hq Hj0) as [Ni0 _].
        apply H1b; try (apply lay_in; assumption); congruence. }
      assert (Hp : p < l_nodes lay).
      { unfold p, src. apply lay_fwd; [exact Hlay|]. apply Hperm. apply lay_in; assumption. }
      assert (Hd : d < l_nodes lay).
      { unfold d, dst. apply lay_fwd; [exact Hlay|]. apply Hperm. apply lay_in; assumption. }
      rewrite (off_list (src q) q p E0 (ex_intro _ i0 (conj Hi0 eq_refl)) Hsrc).
      rewrite (off_list (dst q) q d F0 (ex_intro _ j0 (conj Hj0 eq_refl)) Hdst).
      rewrite !count_nodes_one by assumption. rewrite !filter_map_length.
      cbn [length Nat.ltb Nat.leb Nat.eqb andb negb]. unfold get at 1 2. cbn [nth].
      unfold fill_soffsets.
      rewrite (collect_gen (fun i => l_node lay (f (l_coord lay d i) 1%Z) =? q)
                 (fun i => l_lin lay (f (l_coord lay d i) 1%Z))).
      cbn [app]. rewrite map_length.
      change (fun i => l_node lay (f (l_coord lay d i) 1%Z) =? q) with (fun i => src d i =? q).
      change (seq 0 (l_sites lay)) with (seq 0 NS).
      rewrite <- (count_exchange d q Hd Hq). rewrite Nat.ltb_irrefl, Nat.sub_diag.
      cbn [bind repeat]. rewrite app_nil_r, map_map.
      eexists. split; [reflexivity|]. split; [reflexivity|]. split; [reflexivity|].
      right. split; [reflexivity|]. exists p, d. cbn.
      repeat (split; [first [assumption | reflexivity]|]).
      split; [exists i0; split; [exact Hi0|reflexivity]|].
      split; [exact Hdst|]. exists j0; split; [exact Hj0|reflexivity].
  Qed.

  Lemma unpack_ok {T} (phi : list nat -> T) q is : q < l_nodes lay ->
    (forall i, In i is -> i < NS) ->
    unpack q (map (fun i => phi (fwd (l_coord lay q i)))
                  (filter (fun i => negb (src q i =? q)) is))
      (stored lay phi q)
      (map (fun i => l_lin lay (fwd (l_coord lay q i))) is) (map (src q) is)
    = Val (map (fun i => phi (fwd (l_coord lay q i))) is).
  Proof.
    clear H1f H1b. intros Hq. induction is as [|i is IH]; intros H; [reflexivity|].
    cbn [map filter unpack]. specialize (IH (fun j Hj => H j (or_intror Hj))).
    assert (Hi : i < NS) by (apply H; left; reflexivity).
    destruct (src q i =? q) eqn:E; cbn [negb].
    - apply Nat.eqb_eq in E. unfold src in E.
      destruct (lay_fwd lay Hlay (fwd (l_coord lay q i))) as (A & B & C).
      { apply Hperm. apply lay_in; assumption. }
      rewrite stored_nth by exact B. cbn [of_option bind]. rewrite IH. cbn [bind].
      rewrite <- E at 1. rewrite C. reflexivity.
    - cbn [map]. rewrite IH. reflexivity.
  Qed.

  Lemma run_ok {T} (phi : list nat -> T) :
    run_mapP lay f (stored_all lay phi) = Val (stored_all lay (fun c => phi (fwd c))).
  Proof.
    unfold run_mapP.
    destruct (mapM_exists (map_makeP lay f) map_spec (seq 0 (l_nodes lay))) as (ms & Em & Fm).
    { intros q Hq. apply in_seq in Hq. apply make_ok. lia. }
    rewrite Em. cbn [bind].
    assert (Hms : forall q, q < l_nodes lay -> exists m, nth_error ms q = Some m /\ map_spec q m).
    { intros q Hq. apply (Forall2_nth _ _ _ _ _ Fm). apply nth_error_seq. exact Hq. }
    clear Em Fm. unfold stored_all at 2. apply mapM_Val. intros q Hq. apply in_seq in Hq.
    assert (Hq' : q < l_nodes lay) by lia. clear Hq.
    destruct (Hms q Hq') as (m & Em & Gm & Sm & Cm).
    unfold map_applyP. rewrite Em. cbn [of_option bind].
    rewrite stored_all_nth by exact Hq'. cbn [of_option bind].
    destruct Cm as [[Ho Hon]|(Ho & p & d & Hpq & Hdq & Hp & Hd & Es & Ed & Esn & Edn & _ &
                              Hsrc & (i0 & Hi0 & Ei0) & Hdst & (j0 & Hj0 & Ej0))]; rewrite Ho.
    - (* no communication *)
      unfold map_apply1. rewrite stored_length. unfold stored at 2. apply mapM_Val.
      intros i Hi. apply in_seq in Hi. rewrite Gm, nth_error_map_seq.
      destruct (i <? NS) eqn:E; [|fold NS in Hi; lia]. cbn [of_option bind].
      destruct (lay_fwd lay Hlay (fwd (l_coord lay q i))) as (A & B & C).
      { apply Hperm. apply lay_in; auto. fold NS; lia. }
      rewrite stored_nth by exact B. rewrite <- (Hon i ltac:(fold NS in Hi; lia)) at 1.
      unfold src. rewrite C. reflexivity.
    - (* exchange *)
      assert (R : recv_buf ms (stored_all lay phi) q =
                  Val (map (fun i => phi (fwd (l_coord lay q i)))
                           (filter (fun i => src q i =? p) (seq 0 NS)))).
      { unfold recv_buf. rewrite Em. cbn [of_option bind]. rewrite Es, Ed, Esn, Edn.
        change (get [p] 0) with p. change (get [d] 0) with d.
        destruct (Hms p Hp) as (mp & Emp & _ & _ & Cp).
        destruct (Hms d Hd) as (md & Emd & _ & _ & Cd).
        rewrite Emp, Emd. cbn [of_option bind]. rewrite stored_all_nth by exact Hp.
        cbn [of_option bind].
        (* p sends to q *)
        assert (Sp : exists k, k < NS /\ dst p k = q).
        { pose proof (lay_in lay Hlay q i0 Hq' Hi0) as Hc. destruct Hperm as [Pf _].
          destruct (Pf _ Hc) as [Hfc Ebf]. destruct (lay_fwd lay Hlay _ Hfc) as (A & B & C).
          exists (l_lin lay (fwd (l_coord lay q i0))). split; [exact B|].
          unfold src in Ei0. rewrite Ei0 in C. unfold dst. rewrite C, Ebf.
          apply lay_inv; assumption. }
        (* d receives from q *)
        assert (Sd : exists k, k < NS /\ src d k = q).
        { pose proof (lay_in lay Hlay q j0 Hq' Hj0) as Hc. destruct Hperm as [_ Pb].
          destruct (Pb _ Hc) as [Hfc Ebf]. destruct (lay_fwd lay Hlay _ Hfc) as (A & B & C).
          exists (l_lin lay (bwd (l_coord lay q j0))). split; [exact B|].
          unfold dst in Ej0. rewrite Ej0 in C. unfold src. rewrite C, Ebf.
          apply lay_inv; assumption. }
        destruct Cp as [[_ Hn]|(Hop & p' & d' & _ & _ & _ & _ & _ & Edp & _ & Ednp & Eso & _ & _ & Hdp & _)].
        { exfalso. destruct (off_both p Hp) as [_ G]. destruct G as (k & Hk & Ek).
          - destruct Sp as (k & Hk & Ek). exists k. split; [exact Hk|congruence].
          - apply Ek, Hn, Hk. }
        destruct Cd as [[_ Hn]|(Hod & p'' & d'' & _ & _ & _ & _ & Esd & _ & Esnd & _ & _ & Hsd & _ & _ & _)].
        { exfalso. destruct Sd as (k & Hk & Ek). rewrite Hn in Ek by exact Hk. congruence. }
        assert (d' = q).
        { destruct Sp as (k & Hk & Ek). rewrite <- (Hdp k Hk); congruence. }
        assert (p'' = q).
        { destruct Sd as (k & Hk & Ek). rewrite <- (Hsd k Hk); congruence. }
        subst d' p''. rewrite Hop, Edp, Ednp, Hod, Esd, Esnd.
        change (get [q] 0) with q.
        repeat match goal with |- context [get [?x] 0] => change (get [x] 0) with x end.
        rewrite !Nat.eqb_refl. cbn [andb].
        rewrite (count_exchange q p Hq' Hp), Nat.eqb_refl. cbn [andb].
        rewrite <- (count_exchange d q Hd Hq'), Nat.eqb_refl.
        unfold send_buf. rewrite Eso.
        generalize (fun i (H : In i (filter (fun i => src q i =? p) (seq 0 NS))) => H).
        assert (Hall : forall i, In i (filter (fun i => src q i =? p) (seq 0 NS)) ->
                                 i < NS /\ src q i = p).
        { intros i Hi. apply filter_In in Hi as [Hi E]. apply in_seq in Hi.
          apply Nat.eqb_eq in E. split; [lia|exact E]. }
        intros _. revert Hall.
        generalize (filter (fun i => src q i =? p) (seq 0 NS)). intros l.
        induction l as [|i l IH]; intros Hall; [reflexivity|].
        cbn [map mapM]. cbn [of_option bind].
        destruct (Hall i (or_introl eq_refl)) as [Hi E].
        destruct (lay_fwd lay Hlay (fwd (l_coord lay q i))) as (A & B & C).
        { apply Hperm. apply lay_in; assumption. }
        rewrite stored_nth by exact B. cbn [of_option bind].
        rewrite IH by (intros j Hj; apply Hall; right; exact Hj). cbn [bind].
        unfold src in E. rewrite <- E at 1. rewrite C. reflexivity. }
      rewrite R. cbn [bind]. rewrite Gm, Sm.
      replace (filter (fun i => src q i =? p) (seq 0 NS))
        with (filter (fun i => negb (src q i =? q)) (seq 0 NS)).
      + rewrite unpack_ok; [reflexivity|exact Hq'|]. intros i Hi. apply in_seq in Hi. lia.
      + apply filter_ext_in. intros i Hi. apply in_seq in Hi.
        destruct (src q i =? q) eqn:E1.
        * apply Nat.eqb_eq in E1. rewrite E1. cbn [negb]. symmetry. apply Nat.eqb_neq. congruence.
        * apply Nat.eqb_neq in E1. cbn [negb]. symmetry. apply Nat.eqb_eq. apply Hsrc; [lia|exact E1].
  Qed.
End Par.

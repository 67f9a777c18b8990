(** The ring reduction and sums over several nodes. *)
From Coq Require Import List Arith ZArith Bool Lia Permutation.
From Coq Require Import ZifyBool ZifyNat.
From Verif Require Import Base LayoutModel LayoutSpec LayoutProofs LayoutOk SetModel MapProofs EvalModel EvalSpec EvalProofs.
Import ListNotations.
Local Open Scope nat_scope.
Ltac Zify.zify_post_hook ::= Z.div_mod_to_equations.

Section RingOne.
  Context {A : Type} (add : A -> A -> A) (dflt : A).

  Lemma mod_shift p P k : p < P -> S k < P ->
    ((p + P - 1) mod P + P - k) mod P = (p + P - S k) mod P.
  Proof.
    intros Hp Hk. destruct (Nat.eq_dec p 0) as [->|H0].
    - rewrite (Nat.mod_small (0 + P - 1)) by lia.
      replace (0 + P - 1 + P - k) with (0 + P - S k + 1 * P) by lia. apply Nat.mod_add. lia.
    - replace (p + P - 1) with (p - 1 + 1 * P) by lia. rewrite Nat.mod_add by lia.
      rewrite (Nat.mod_small (p - 1)) by lia. f_equal. lia.
  Qed.

  Lemma ring_comm_eq P (x : nat -> list A) p k : p < P -> k < P ->
    Nat.iter k (ring_round P) (fun p => (x p, [x p])) p
    = (x ((p + P - k) mod P), map (fun i => x ((p + P - i) mod P)) (seq 0 (S k))).
  Proof.
    intros Hp. revert p Hp. induction k as [|k IH]; intros p Hp Hk.
    - cbn [Nat.iter nat_rect seq map]. rewrite Nat.sub_0_r.
      replace (p + P) with (p + 1 * P) by lia. rewrite Nat.mod_add by lia. rewrite Nat.mod_small by lia. reflexivity.
    - cbn [Nat.iter nat_rect].
      change (nat_rect (fun _ => nat -> list A * list (list A)) (fun p => (x p, [x p])) (fun _ => ring_round P) k)
        with (Nat.iter k (ring_round P) (fun p => (x p, [x p]))).
      unfold ring_round at 1. rewrite (IH p Hp) by lia.
      rewrite IH; [|apply Nat.mod_upper_bound; lia|lia]. cbn [fst snd]. rewrite mod_shift by lia.
      f_equal. rewrite (seq_S (S k)). rewrite map_app. reflexivity.
  Qed.

  (** The value every node computes: data of node 0, then P-1, P-2, ..., 1. *)
  Definition ring_value (P j : nat) (x : nat -> list A) : A :=
    fold_left (fun a i => add a (nth j (x (P - i)) dflt)) (seq 1 (P - 1)) (nth j (x 0) dflt).

  Lemma row_eq P (x : nat -> list A) p i : p < P -> i < P ->
    nth ((p + i) mod P) (map (fun i => x ((p + P - i) mod P)) (seq 0 P)) [] = x ((P - i) mod P).
  Proof.
    intros Hp Hi. set (r := (p + i) mod P).
    assert (Hr : r < P) by (apply Nat.mod_upper_bound; lia).
    rewrite (nth_indep _ [] (x ((p + P - 0) mod P))) by (rewrite map_length, seq_length; exact Hr).
    rewrite (map_nth (fun i => x ((p + P - i) mod P))). rewrite seq_nth by exact Hr. f_equal. cbn [Nat.add].
    destruct (Nat.lt_ge_cases (p + i) P) as [H|H].
    - assert (r = p + i) by (apply Nat.mod_small; exact H). rewrite H0. f_equal. lia.
    - assert (r = p + i - P).
      { unfold r. assert (E : p + i = p + i - P + 1 * P) by lia. rewrite E at 1. rewrite Nat.mod_add by lia.
        apply Nat.mod_small. lia. }
      rewrite H0. replace (p + P - (p + i - P)) with (P - i + 1 * P) by lia. apply Nat.mod_add. lia.
  Qed.

  Lemma ring_sum_eq P (x : nat -> list A) p len j : p < P ->
    ring_sum add P p (snd (ring_comm P x p)) dflt len j = ring_value P j x.
  Proof.
    intros Hp. unfold ring_comm. rewrite ring_comm_eq by lia. cbn [snd].
    replace (S (P - 1)) with P by lia. unfold ring_sum, ring_value.
    set (rows := map _ (seq 0 P)).
    assert (G : forall m k a, k + m < P ->
      snd (fold_left (fun (s : nat * A) (_ : nat) =>
             ((fst s + 1) mod P, add (snd s) (nth j (nth ((fst s + 1) mod P) rows []) dflt)))
             (seq 0 m) ((p + k) mod P, a))
      = fold_left (fun a i => add a (nth j (x (P - i)) dflt)) (seq (S k) m) a).
    { intros m. assert (Gen : forall s0 k a, k + m < P ->
      snd (fold_left (fun (s : nat * A) (_ : nat) =>
             ((fst s + 1) mod P, add (snd s) (nth j (nth ((fst s + 1) mod P) rows []) dflt)))
             (seq s0 m) ((p + k) mod P, a))
      = fold_left (fun a i => add a (nth j (x (P - i)) dflt)) (seq (S k) m) a).
      { induction m as [|m IH]; intros s0 k a Hk; [reflexivity|]. cbn [seq fold_left fst snd].
        assert (E : ((p + k) mod P + 1) mod P = (p + S k) mod P).
        { rewrite Nat.add_mod_idemp_l by lia. f_equal. lia. }
        rewrite E. rewrite IH by lia. f_equal. f_equal. unfold rows. rewrite row_eq by lia.
        rewrite (Nat.mod_small (P - S k)) by lia. reflexivity. }
      apply Gen. }
    specialize (G (P - 1) 0 (nth j (nth p rows []) dflt) ltac:(lia)).
    rewrite Nat.add_0_r, (Nat.mod_small p) in G by lia. cbv zeta. rewrite G. f_equal.
    replace p with ((p + 0) mod P) by (rewrite Nat.add_0_r; apply Nat.mod_small; lia).
    unfold rows. rewrite row_eq by lia. rewrite Nat.sub_0_r, Nat.mod_same by lia. reflexivity.
  Qed.

  Lemma sumTDirection_eq P (x : nat -> list A) p len : p < P ->
    sumTDirection add P dflt len x p = map (fun j => ring_value P j x) (seq 0 len).
  Proof. intros Hp. unfold sumTDirection. apply map_ext. intros j. apply ring_sum_eq. exact Hp. Qed.

  Lemma ring_value_ext P j x y : 0 < P -> (forall p, p < P -> x p = y p) -> ring_value P j x = ring_value P j y.
  Proof.
    intros HP H. unfold ring_value. rewrite (H 0 HP).
    assert (G : forall l a, (forall i, In i l -> 1 <= i < P) ->
      fold_left (fun a i => add a (nth j (x (P - i)) dflt)) l a
      = fold_left (fun a i => add a (nth j (y (P - i)) dflt)) l a).
    { induction l as [|i l IH]; intros a Hl; [reflexivity|]. cbn [fold_left].
      rewrite (H (P - i)) by (specialize (Hl i (or_introl eq_refl)); lia). apply IH.
      intros k Hk. apply Hl. right. exact Hk. }
    apply G. intros i Hi. apply in_seq in Hi. lia.
  Qed.
End RingOne.

Lemma upd_in G m p c : in_lattice G c -> m < length G -> p < get G m -> in_lattice G (upd m p c).
Proof.
  intros Hc Hm Hp. apply in_lattice_get in Hc as [Hl Hc]. apply in_lattice_get.
  rewrite length_upd. split; [exact Hl|]. intros i Hi. destruct (Nat.eq_dec i m) as [->|Hn].
  - rewrite get_upd_eq by lia. exact Hp.
  - rewrite get_upd_ne by auto. apply Hc. exact Hi.
Qed.

(** All directions. *)
Section RingAll.
  Context {A : Type} (add : A -> A -> A) (dflt : A) (G : list nat) (len : nat) (x : list nat -> list A).
  Hypothesis HG : positive G.

  Definition stage (m : nat) : list nat -> list A :=
    fold_left (fun x dim c => sumTDirection add (get G dim) dflt len (fun p => x (upd dim p c)) (get c dim))
              (seq 0 m) x.

  Lemma stage_S m c : m < length G -> in_lattice G c ->
    stage (S m) c = map (fun j => ring_value add dflt (get G m) j (fun p => stage m (upd m p c))) (seq 0 len).
  Proof.
    intros Hm Hc. unfold stage. rewrite seq_S, fold_left_app. cbn [fold_left Nat.add].
    apply sumTDirection_eq. apply in_lattice_get in Hc as [_ Hc]. apply Hc. exact Hm.
  Qed.

  Lemma stage_depends m : m <= length G -> forall c c', in_lattice G c -> in_lattice G c' ->
    (forall i, m <= i -> get c i = get c' i) -> stage m c = stage m c'.
  Proof.
    induction m as [|m IH]; intros Hm c c' Hc Hc' He.
    - replace c with c'; [reflexivity|]. apply get_ext.
      + apply in_lattice_length in Hc. apply in_lattice_length in Hc'. lia.
      + intros i _. symmetry. apply He. lia.
    - rewrite !stage_S by (auto; lia). apply map_ext. intros j. apply ring_value_ext.
      + apply HG. lia.
      + intros p Hp. apply IH; [lia|apply upd_in; auto; lia|apply upd_in; auto; lia|].
        intros i Hi. apply in_lattice_length in Hc. apply in_lattice_length in Hc'.
        destruct (Nat.eq_dec i m) as [->|Hn].
        * rewrite !get_upd_eq by lia. reflexivity.
        * rewrite !get_upd_ne by auto. apply He. lia.
  Qed.

  Lemma sumT_same c c' : in_lattice G c -> in_lattice G c' ->
    sumT add G dflt len x c = sumT add G dflt len x c'.
  Proof.
    intros Hc Hc'. apply (stage_depends (length G)); auto. intros i Hi.
    unfold get. apply in_lattice_length in Hc. apply in_lattice_length in Hc'.
    rewrite !nth_overflow by lia. reflexivity.
  Qed.
End RingAll.

(** With an associative and commutative addition. *)
Section RingMonoid.
  Context {A : Type} {zero : A} {add : A -> A -> A}.
  Hypothesis M : comm_monoid zero add.

  Lemma fold_left_map {B} (f : B -> A) l : forall a, fold_left (fun a i => add a (f i)) l a = fold_left add (map f l) a.
  Proof. induction l as [|y l IH]; intros a; [reflexivity|]. cbn [fold_left map]. apply IH. Qed.

  Lemma ring_value_total P j (x : nat -> list A) : 0 < P ->
    ring_value add zero P j x = total zero add (map (fun p => nth j (x p) zero) (seq 0 P)).
  Proof.
    intros HP. unfold ring_value. rewrite fold_left_map, (fold_left_total M).
    destruct P as [|P]; [lia|]. cbn [seq map]. replace (S P - 1) with P by lia.
    change (total zero add (?a :: ?l)) with (add a (total zero add l)). f_equal. apply (total_perm M).
    rewrite <- (map_map (fun i => S P - i) (fun p => nth j (x p) zero)). apply Permutation_map.
    apply NoDup_Permutation_bis.
    - assert (Inj : forall l, (forall i, In i l -> i <= S P) -> NoDup l -> NoDup (map (fun i => S P - i) l)).
      { induction l as [|i l IH]; intros Hl Hn; [constructor|]. cbn [map]. inversion Hn; subst. constructor.
        - intros Hin. apply in_map_iff in Hin as (k & E & Hk).
          pose proof (Hl i (or_introl eq_refl)). pose proof (Hl k (or_intror Hk)).
          assert (i = k) by lia. congruence.
        - apply IH; [intros; apply Hl; right; assumption|assumption]. }
      apply Inj; [|apply seq_NoDup]. intros i Hi. apply in_seq in Hi. lia.
    - rewrite map_length, !seq_length. lia.
    - intros i Hi. apply in_map_iff in Hi as (k & <- & Hk). apply in_seq in Hk. apply in_seq. lia.
  Qed.

  Lemma box_sum_last G g : forall f, box_sum zero add (G ++ [g]) f =
    total zero add (map (fun p => box_sum zero add G (fun a => f (a ++ [p]))) (seq 0 g)).
  Proof.
    induction G as [|g0 G IH]; intros f; [reflexivity|]. cbn [app box_sum].
    rewrite (map_ext _ (fun i => total zero add
       (map (fun p => box_sum zero add G (fun a => f (i :: a ++ [p]))) (seq 0 g)))).
    2:{ intros i. rewrite IH. reflexivity. }
    rewrite (total_swap M). reflexivity.
  Qed.

  Lemma box_sum_ext G f g : (forall c, length c = length G -> f c = g c) ->
    box_sum zero add G f = box_sum zero add G g.
  Proof.
    revert f g. induction G as [|n G IH]; intros f g H; cbn [box_sum]; [apply H; reflexivity|].
    f_equal. apply map_ext. intros i. apply IH. intros c Hc. apply H. cbn. lia.
  Qed.

  Variables (G : list nat) (len : nat) (x : list nat -> list A).
  Hypothesis HG : positive G.

  Lemma firstn_S_get m : m < length G -> firstn (S m) G = firstn m G ++ [get G m].
  Proof.
    clear. unfold get. revert m. induction G as [|g G' IH]; intros m Hm; [cbn in Hm; lia|].
    destruct m as [|m]; [reflexivity|]. cbn [firstn app nth]. f_equal. apply IH. cbn in Hm. lia.
  Qed.

  Lemma upd_skipn m p : forall c, m < length c -> skipn m (upd m p c) = p :: skipn (S m) c.
  Proof.
    clear. induction m as [|m IH]; intros c Hc; destruct c as [|y c]; cbn in Hc; try lia; [reflexivity|].
    cbn [skipn upd]. rewrite IH by lia. reflexivity.
  Qed.

  Lemma stage_total j m : j < len -> m <= length G -> forall c, in_lattice G c ->
    nth j (stage add zero G len x m c) zero =
    box_sum zero add (firstn m G) (fun a => nth j (x (a ++ skipn m c)) zero).
  Proof.
    intros Hj. induction m as [|m IH]; intros Hm c Hc; [reflexivity|].
    rewrite stage_S by (auto; lia).
    rewrite (nth_indep _ zero (ring_value add zero (get G m) 0 (fun p => stage add zero G len x m (upd m p c))))
      by (rewrite map_length, seq_length; exact Hj).
    rewrite (map_nth (fun j => ring_value add zero (get G m) j (fun p => stage add zero G len x m (upd m p c)))).
    rewrite seq_nth by exact Hj. cbn [Nat.add].
    rewrite ring_value_total by (apply HG; lia). rewrite firstn_S_get by lia. rewrite box_sum_last.
    f_equal. apply map_ext_in. intros p Hp. apply in_seq in Hp. rewrite IH; [|lia|apply upd_in; auto; lia].
    apply box_sum_ext. intros a _. rewrite upd_skipn by (apply in_lattice_length in Hc; lia).
    rewrite <- app_assoc. reflexivity.
  Qed.

  Lemma sumT_total c j : in_lattice G c -> j < len ->
    nth j (sumT add G zero len x c) zero = box_sum zero add G (fun c => nth j (x c) zero).
  Proof.
    intros Hc Hj. change (sumT add G zero len x c) with (stage add zero G len x (length G) c).
    rewrite stage_total by auto. rewrite firstn_all. apply box_sum_ext. intros a _.
    rewrite skipn_all2 by (apply in_lattice_length in Hc; lia). rewrite app_nil_r. reflexivity.
  Qed.
End RingMonoid.

Lemma sumT_length {A} (add : A -> A -> A) G d len x c : 0 < length G -> in_lattice G c ->
  length (sumT add G d len x c) = len.
Proof.
  intros HG Hc. change (sumT add G d len x c) with (stage add d G len x (length G) c).
  destruct (length G) as [|m] eqn:E; [lia|]. rewrite stage_S by (auto; lia).
  rewrite map_length. apply seq_length.
Qed.

(** ** Sums over all sites of all nodes *)
Fixpoint coords (G : list nat) : list (list nat) :=
  match G with
  | [] => [[]]
  | g :: G' => flat_map (fun i => map (cons i) (coords G')) (seq 0 g)
  end.

Lemma coords_in G c : In c (coords G) <-> in_lattice G c.
Proof.
  revert c. induction G as [|g G IH]; intros c.
  - cbn. rewrite in_lattice_get. split.
    + intros [<-|[]]. split; [reflexivity|]. cbn. intros; lia.
    + intros [E _]. destruct c; [left; reflexivity|discriminate].
  - cbn [coords]. rewrite in_flat_map. rewrite in_lattice_get. split.
    + intros (i & Hi & Hc). apply in_seq in Hi. apply in_map_iff in Hc as (a & <- & Ha).
      apply IH in Ha. apply in_lattice_get in Ha as [E Ha]. split; [cbn; lia|].
      intros [|k] Hk; unfold get; cbn [nth]; [lia|]. apply Ha. cbn in Hk. lia.
    + intros [E H]. destruct c as [|i c]; [discriminate|].
      exists i. split; [apply in_seq; specialize (H 0 ltac:(cbn; lia)); unfold get in H; cbn in H; lia|].
      apply in_map. apply IH. apply in_lattice_get. split; [cbn in E; lia|].
      intros k Hk. apply (H (S k)). cbn. lia.
Qed.

Lemma NoDup_app_intro {X} (l l' : list X) : NoDup l -> NoDup l' -> (forall x, In x l -> ~ In x l') -> NoDup (l ++ l').
Proof.
  induction 1 as [|x l Hx _ IH]; intros H' Hd; [exact H'|]. cbn [app]. constructor.
  - intros Hin. apply in_app_or in Hin as [H|H]; [contradiction|]. apply (Hd x (or_introl eq_refl) H).
  - apply IH; [exact H'|]. intros y Hy. apply Hd. right. exact Hy.
Qed.

Lemma coords_NoDup G : NoDup (coords G).
Proof.
  induction G as [|g G IH]; [repeat constructor; auto|]. cbn [coords].
  assert (S : forall l, NoDup l -> NoDup (flat_map (fun i => map (cons i) (coords G)) l)).
  { induction 1 as [|i l Hi _ IHl]; [constructor|]. cbn [flat_map]. apply NoDup_app_intro; auto.
    - apply FinFun.Injective_map_NoDup; [|exact IH]. intros a b E. congruence.
    - intros c Hc Hc'. apply in_map_iff in Hc as (a & <- & _). apply in_flat_map in Hc' as (k & Hk & Hc').
      apply in_map_iff in Hc' as (b & E & _). injection E as -> _. contradiction. }
  apply S. apply seq_NoDup.
Qed.

Section GlobalSum.
  Context {A : Type} {zero : A} {add : A -> A -> A}.
  Hypothesis M : comm_monoid zero add.

  Lemma box_sum_coords G : forall f, box_sum zero add G f = total zero add (map f (coords G)).
  Proof.
    induction G as [|g G IH]; intros f; cbn [box_sum coords].
    - unfold total. cbn. symmetry. apply (zero_r M).
    - rewrite flat_map_concat_map, concat_map, (total_concat M), !map_map. f_equal. apply map_ext. intros i.
      rewrite IH, map_map. reflexivity.
  Qed.

  (** What all nodes of a layout hold, added up in any way, is the sum over the lattice. *)
  Lemma all_nodes_sum lay f : layout_ok lay ->
    total zero add (map (fun q => total zero add (map (fun i => f (l_coord lay q i)) (seq 0 (l_sites lay))))
                        (seq 0 (l_nodes lay)))
    = box_sum zero add (l_size lay) f.
  Proof.
    intros Hl. rewrite box_sum_coords.
    set (cs := flat_map (fun q => map (l_coord lay q) (seq 0 (l_sites lay))) (seq 0 (l_nodes lay))).
    transitivity (total zero add (map f cs)).
    - unfold cs. rewrite flat_map_concat_map, concat_map, (total_concat M), !map_map. f_equal.
      apply map_ext. intros q. rewrite map_map. reflexivity.
    - apply (total_perm M). apply Permutation_map. apply NoDup_Permutation.
      + unfold cs. assert (S : forall l, NoDup l -> (forall q, In q l -> q < l_nodes lay) ->
           NoDup (flat_map (fun q => map (l_coord lay q) (seq 0 (l_sites lay))) l)).
        { induction 1 as [|q l Hq _ IHl]; intros Hb; [constructor|]. cbn [flat_map]. apply NoDup_app_intro.
          - assert (Q : forall l0, NoDup l0 -> (forall i, In i l0 -> i < l_sites lay) ->
                      NoDup (map (l_coord lay q) l0)).
            { induction 1 as [|i l0 Hi _ IH0]; intros Hb0; [constructor|]. cbn [map]. constructor.
              - intros Hin. apply in_map_iff in Hin as (k & E & Hk).
                destruct (lay_inv lay Hl q i (Hb q (or_introl eq_refl)) (Hb0 i (or_introl eq_refl))) as [_ E1].
                destruct (lay_inv lay Hl q k (Hb q (or_introl eq_refl)) (Hb0 k (or_intror Hk))) as [_ E2].
                rewrite E in E2. rewrite E2 in E1. subst. contradiction.
              - apply IH0. intros. apply Hb0. right. assumption. }
            apply Q; [apply seq_NoDup|]. intros i Hi. apply in_seq in Hi. lia.
          - apply IHl. intros. apply Hb. right. assumption.
          - intros c Hc Hc'. apply in_map_iff in Hc as (i & <- & Hi). apply in_seq in Hi.
            apply in_flat_map in Hc' as (q' & Hq' & Hc'). apply in_map_iff in Hc' as (k & E & Hk). apply in_seq in Hk.
            destruct (lay_inv lay Hl q i (Hb q (or_introl eq_refl)) ltac:(lia)) as [E1 _].
            destruct (lay_inv lay Hl q' k (Hb q' (or_intror Hq')) ltac:(lia)) as [E2 _].
            rewrite E in E2. rewrite E2 in E1. subst. contradiction. }
        apply S; [apply seq_NoDup|]. intros q Hq. apply in_seq in Hq. lia.
      + apply coords_NoDup.
      + intros c. rewrite coords_in. unfold cs. rewrite in_flat_map. split.
        * intros (q & Hq & Hc). apply in_seq in Hq. apply in_map_iff in Hc as (i & <- & Hi). apply in_seq in Hi.
          apply lay_in; auto; lia.
        * intros Hc. destruct (lay_fwd lay Hl c Hc) as (A1 & A2 & A3).
          exists (l_node lay c). split; [apply in_seq; lia|]. apply in_map_iff. exists (l_lin lay c).
          split; [exact A3|apply in_seq; lia].
  Qed.
End GlobalSum.

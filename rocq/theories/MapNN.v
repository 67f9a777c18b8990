(** Nearest-neighbour shifts. *)
From Coq Require Import List Arith ZArith Bool Lia Permutation.
From Coq Require Import ZifyBool ZifyNat.
From Verif Require Import Base LayoutModel LayoutSpec LayoutProofs LayoutOk MapModel MapSpec SetProofs MapProofs.
Import ListNotations.
Local Open Scope nat_scope.
Ltac Zify.zify_post_hook ::= Z.div_mod_to_equations.

Lemma step_len L b mu c : length (step_site L b mu c) = length c.
Proof. unfold step_site. apply length_upd. Qed.

Lemma step_get_ne L b mu c i : i <> mu -> get (step_site L b mu c) i = get c i.
Proof. intros H. unfold step_site. apply get_upd_ne. auto. Qed.

Lemma step_get_eq L b mu c : mu < length c ->
  get (step_site L b mu c) mu =
  if b then (if S (get c mu) =? get L mu then 0 else S (get c mu))
  else (if get c mu =? 0 then get L mu - 1 else get c mu - 1).
Proof. intros H. unfold step_site. apply get_upd_eq. exact H. Qed.

Lemma step_in L b mu c : in_lattice L c -> in_lattice L (step_site L b mu c).
Proof.
  intros Hc. apply in_lattice_get in Hc as [Hl Hc]. apply in_lattice_get.
  rewrite step_len. split; [exact Hl|]. intros i Hi. specialize (Hc i Hi).
  destruct (Nat.eq_dec i mu) as [->|Hn].
  - rewrite step_get_eq by lia. destruct b.
    + destruct (S (get c mu) =? get L mu) eqn:E; lia.
    + destruct (get c mu =? 0) eqn:E; lia.
  - rewrite step_get_ne by exact Hn. exact Hc.
Qed.

Lemma step_inv L b mu c : in_lattice L c -> mu < length L ->
  step_site L (negb b) mu (step_site L b mu c) = c.
Proof.
  intros Hc Hmu. apply in_lattice_get in Hc as [Hl Hc]. apply get_ext.
  { rewrite !step_len. reflexivity. }
  rewrite !step_len. intros i Hi. destruct (Nat.eq_dec i mu) as [->|Hn].
  - rewrite step_get_eq by (rewrite step_len; lia). rewrite !step_get_eq by lia.
    specialize (Hc mu Hmu). destruct b; cbn [negb];
    repeat match goal with |- context [if ?x then _ else _] => lazymatch x with context [if _ then _ else _] => fail | _ => destruct x eqn:? end end; lia.
  - rewrite !step_get_ne by exact Hn. reflexivity.
Qed.

Lemma step_perm L b mu : mu < length L ->
  site_permutation L (step_site L b mu) (step_site L (negb b) mu).
Proof.
  intros Hmu. split; intros c Hc.
  - split; [apply step_in; exact Hc|apply step_inv; assumption].
  - split; [apply step_in; exact Hc|].
    rewrite <- (negb_involutive b) at 1. apply step_inv; assumption.
Qed.

Lemma step_comm L b1 b2 mu nu c : in_lattice L c -> mu < length L -> nu < length L ->
  step_site L b1 mu (step_site L b2 nu c) = step_site L b2 nu (step_site L b1 mu c).
Proof.
  intros Hc Hmu Hnu. apply in_lattice_get in Hc as [Hl Hc]. apply get_ext.
  { rewrite !step_len. reflexivity. }
  rewrite !step_len. intros i Hi.
  destruct (Nat.eq_dec mu nu) as [->|Hne].
  - destruct (Nat.eq_dec i nu) as [->|Hn]; [|rewrite !step_get_ne by exact Hn; reflexivity].
    rewrite !step_get_eq by (rewrite ?step_len; lia). specialize (Hc nu Hnu). destruct b1, b2; cbn [negb];
    repeat match goal with |- context [if ?x then _ else _] => lazymatch x with context [if _ then _ else _] => fail | _ => destruct x eqn:? end end; lia.
  - destruct (Nat.eq_dec i mu) as [->|Hn].
    + rewrite step_get_eq by (rewrite step_len; lia). rewrite (step_get_ne L b2 nu c mu) by exact Hne.
      rewrite (step_get_ne L b2 nu _ mu) by exact Hne. rewrite step_get_eq by lia. reflexivity.
    + rewrite (step_get_ne L b1 mu _ i) by exact Hn. destruct (Nat.eq_dec i nu) as [->|Hn'].
      * rewrite !step_get_eq by (rewrite ?step_len; lia). rewrite (step_get_ne L b1 mu c nu) by auto.
        reflexivity.
      * rewrite !step_get_ne by assumption. reflexivity.
Qed.

Lemma iter_step_get L mu c n : in_lattice L c -> mu < length L ->
  let c' := Nat.iter n (step_site L true mu) c in
  in_lattice L c' /\ get c' mu = (get c mu + n) mod get L mu /\
  forall i, i <> mu -> get c' i = get c i.
Proof.
  intros Hc Hmu. assert (Hc0 := Hc). apply in_lattice_get in Hc0 as [Hl Hg]. specialize (Hg mu Hmu).
  induction n as [|n IH]; cbn [Nat.iter nat_rect].
  - repeat split; auto. rewrite Nat.add_0_r, Nat.mod_small; auto.
  - destruct IH as (A & B & C). change (nat_rect _ _ _ n) with (Nat.iter n (step_site L true mu) c) in *.
    set (c' := Nat.iter n (step_site L true mu) c) in *. split; [|split].
    + apply step_in. exact A.
    + apply in_lattice_get in A as [A _]. rewrite step_get_eq by lia. rewrite B.
      set (N := get L mu) in *. replace (get c mu + S n) with (get c mu + n + 1) by lia.
      rewrite (Nat.add_mod (get c mu + n) 1) by lia.
      pose proof (Nat.mod_upper_bound (get c mu + n) N ltac:(lia)) as Hu.
      set (r := (get c mu + n) mod N) in *. clearbody r N.
      destruct (S r =? N) eqn:E.
      * apply Nat.eqb_eq in E. destruct (Nat.eq_dec N 1) as [->|HN]; [reflexivity|].
        rewrite (Nat.mod_small 1) by lia. replace (r + 1) with N by lia. rewrite Nat.mod_same by lia. reflexivity.
      * apply Nat.eqb_neq in E. rewrite (Nat.mod_small 1) by lia. rewrite Nat.mod_small by lia. lia.
    + intros i Hi. rewrite step_get_ne by exact Hi. apply C; exact Hi.
Qed.

Lemma iter_step_true L mu c : in_lattice L c -> mu < length L ->
  Nat.iter (get L mu) (step_site L true mu) c = c.
Proof.
  intros Hc Hmu. destruct (iter_step_get L mu c (get L mu) Hc Hmu) as (A & B & C).
  assert (Hc0 := Hc). apply in_lattice_get in Hc0 as [Hl Hg]. specialize (Hg mu Hmu).
  apply in_lattice_get in A as [A _]. apply get_ext; [lia|]. intros i Hi.
  destruct (Nat.eq_dec i mu) as [->|Hn]; [|auto]. rewrite B.
  replace (get c mu + get L mu) with (get c mu + 1 * get L mu) by lia.
  rewrite Nat.mod_add by lia. apply Nat.mod_small. exact Hg.
Qed.

Lemma iter_succ_r' {A} (f : A -> A) n : forall x, Nat.iter (S n) f x = Nat.iter n f (f x).
Proof.
  induction n as [|n IH]; intros x; [reflexivity|].
  change (f (Nat.iter (S n) f x) = f (Nat.iter n f (f x))). rewrite IH. reflexivity.
Qed.

Lemma iter_step_cancel L mu n : forall c, in_lattice L c -> mu < length L ->
  Nat.iter n (step_site L true mu) (Nat.iter n (step_site L false mu) c) = c.
Proof.
  induction n as [|n IH]; intros c Hc Hmu; [reflexivity|].
  assert (Hin : forall m, in_lattice L (Nat.iter m (step_site L false mu) c)).
  { induction m; [exact Hc|]. cbn. apply step_in. exact IHm. }
  rewrite iter_succ_r'. cbn [Nat.iter nat_rect].
  change (nat_rect _ _ _ n) with (Nat.iter n (step_site L false mu) c).
  rewrite (step_inv L false mu) by (auto). apply IH; assumption.
Qed.

Lemma iter_step L b mu c : in_lattice L c -> mu < length L ->
  Nat.iter (get L mu) (step_site L b mu) c = c.
Proof.
  intros Hc Hmu. destruct b; [apply iter_step_true; assumption|].
  assert (Hin : forall m, in_lattice L (Nat.iter m (step_site L false mu) c)).
  { induction m; [exact Hc|]. cbn. apply step_in. exact IHm. }
  rewrite <- (iter_step_true L mu (Nat.iter (get L mu) (step_site L false mu) c)) by auto.
  apply iter_step_cancel; assumption.
Qed.

(** The code's neighbour function is [step_site]. *)
Lemma nn_eq L b mu c s : in_lattice L c -> mu < length L -> sgnum s = sign_of b ->
  NearestNeighborMapFunc L c s mu = step_site L b mu c.
Proof.
  intros Hc Hmu Hs. unfold NearestNeighborMapFunc, step_site. f_equal. rewrite Hs.
  apply in_lattice_get in Hc as [Hl Hc]. specialize (Hc mu Hmu).
  set (x := get c mu) in *. set (N := get L mu) in *. clearbody x N.
  rewrite Z.rem_mod_nonneg by (destruct b; cbn [sign_of]; lia).
  destruct b; cbn [sign_of].
  - replace (Z.of_nat x + 1 + 4 * Z.of_nat N)%Z with (Z.of_nat (S x) + 4 * Z.of_nat N)%Z by lia.
    rewrite Z.mod_add by lia. destruct (S x =? N) eqn:E.
    + apply Nat.eqb_eq in E. rewrite E, Z.mod_same by lia. reflexivity.
    + rewrite Z.mod_small by lia. lia.
  - destruct (x =? 0) eqn:E.
    + apply Nat.eqb_eq in E. subst x.
      replace (Z.of_nat 0 + -1 + 4 * Z.of_nat N)%Z with (Z.of_nat (N - 1) + 3 * Z.of_nat N)%Z by lia.
      rewrite Z.mod_add by lia. rewrite Z.mod_small by lia. lia.
    + replace (Z.of_nat x + -1 + 4 * Z.of_nat N)%Z with (Z.of_nat (x - 1) + 4 * Z.of_nat N)%Z by lia.
      rewrite Z.mod_add by lia. rewrite Z.mod_small by lia. lia.
Qed.

Lemma stored_ext {T} lay (phi psi : list nat -> T) q : layout_ok lay -> q < l_nodes lay ->
  (forall c, in_lattice (l_size lay) c -> phi c = psi c) -> stored lay phi q = stored lay psi q.
Proof.
  intros Hl Hq H. unfold stored. apply map_ext_in. intros i Hi. apply in_seq in Hi.
  apply H. apply lay_in; auto. lia.
Qed.

Lemma stored_all_ext {T} lay (phi psi : list nat -> T) : layout_ok lay ->
  (forall c, in_lattice (l_size lay) c -> phi c = psi c) -> stored_all lay phi = stored_all lay psi.
Proof.
  intros Hl H. unfold stored_all. apply map_ext_in. intros q Hq. apply in_seq in Hq.
  apply stored_ext; auto. lia.
Qed.

(** ** shift on one process *)
Section Shift1.
  Variable lay : layout.
  Hypothesis Hlay : layout_ok lay.
  Hypothesis H1 : l_nodes lay = 1.

  Lemma as_stored {T} (l : list T) : length l = l_sites lay -> exists phi, l = stored lay phi 0.
  Proof.
    intros Hl. pose proof (lay_sites_pos lay Hlay) as Hp.
    destruct l as [|x l0]; [cbn in Hl; lia|]. set (l := x :: l0) in *.
    exists (fun c => nth (l_lin lay c) l x). unfold stored.
    apply nth_ext with (d := x) (d' := x); [rewrite map_length, seq_length; exact Hl|].
    intros i Hi. rewrite Hl in Hi.
    rewrite (nth_indep (map (fun j => nth (l_lin lay (l_coord lay 0 j)) l x) (seq 0 (l_sites lay)))
               x ((fun j => nth (l_lin lay (l_coord lay 0 j)) l x) 0))
      by (rewrite map_length, seq_length; exact Hi).
    rewrite (map_nth (fun j => nth (l_lin lay (l_coord lay 0 j)) l x) (seq 0 (l_sites lay)) 0 i).
    rewrite seq_nth by exact Hi. cbn [Nat.add].
    rewrite (proj2 (lay_inv lay Hlay 0 i ltac:(lia) Hi)). reflexivity.
  Qed.

  Lemma shift1_ok {T} (phi : list nat -> T) b dir : dir < length (l_size lay) ->
    shift1 lay (stored lay phi 0) (sign_of b) dir
    = Val (stored lay (fun c => phi (step_site (l_size lay) b dir c)) 0).
  Proof.
    intros Hd. unfold shift1, arraybimap_apply1, arraybimap_make1.
    assert (E : exists m, isign_index (sign_of b) = Val (if b then 1 else 0) /\
                m = sign_of b) by (destruct b; eexists; split; reflexivity).
    destruct E as (m & E & Em). rewrite E. cbn [bind].
    assert (G : forall mult, mult = sign_of b ->
      map_apply1 (map_make1 lay (PackageArrayBiDirectionalMapFunc (NearestNeighborMapFunc (l_size lay)) mult dir))
        (stored lay phi 0) = Val (stored lay (fun c => phi (step_site (l_size lay) b dir c)) 0)).
    { intros mult ->. assert (N : forall c, in_lattice (l_size lay) c ->
        PackageArrayBiDirectionalMapFunc (NearestNeighborMapFunc (l_size lay)) (sign_of b) dir c 1%Z
        = step_site (l_size lay) b dir c).
      { intros c Hc. unfold PackageArrayBiDirectionalMapFunc. apply nn_eq; auto.
        destruct b; reflexivity. }
      rewrite map_apply1_ok; auto.
      - f_equal. apply stored_ext; auto; [lia|]. intros c Hc. rewrite N; auto.
      - intros c Hc. cbn beta. rewrite N by exact Hc. apply step_in; exact Hc. }
    destruct b; cbn [nth_error of_option bind]; rewrite nth_error_map_seq;
      (destruct (dir <? length (l_size lay)) eqn:Ed; [|lia]); cbn [of_option bind]; apply G; reflexivity.
  Qed.

  Lemma shift1_perm {T} (phi : list nat -> T) b dir : dir < length (l_size lay) ->
    Permutation (stored lay phi 0) (stored lay (fun c => phi (step_site (l_size lay) b dir c)) 0).
  Proof.
    intros Hd. unfold stored.
    set (g := fun i => l_lin lay (step_site (l_size lay) b dir (l_coord lay 0 i))).
    assert (Hg : forall i, i < l_sites lay -> g i < l_sites lay /\
              l_coord lay 0 (g i) = step_site (l_size lay) b dir (l_coord lay 0 i)).
    { intros i Hi. pose proof (lay_in lay Hlay 0 i ltac:(lia) Hi) as Hc.
      apply (step_in _ b dir) in Hc. destruct (lay_fwd lay Hlay _ Hc) as (A & B & C).
      replace (l_node lay (step_site (l_size lay) b dir (l_coord lay 0 i))) with 0 in C by lia.
      split; [exact B|exact C]. }
    rewrite (map_ext_in (fun i => phi (step_site (l_size lay) b dir (l_coord lay 0 i)))
               (fun i => phi (l_coord lay 0 (g i)))).
    2:{ intros i Hi. apply in_seq in Hi. rewrite (proj2 (Hg i ltac:(lia))). reflexivity. }
    rewrite <- (map_map g (fun j => phi (l_coord lay 0 j))). apply Permutation_map.
    apply NoDup_Permutation_bis.
    - apply seq_NoDup.
    - rewrite map_length. lia.
    - intros j Hj. apply in_seq in Hj. apply in_map_iff.
      pose proof (lay_in lay Hlay 0 j ltac:(lia) ltac:(lia)) as Hc.
      pose proof (step_in _ (negb b) dir _ Hc) as Hc'.
      destruct (lay_fwd lay Hlay _ Hc') as (A & B & C).
      set (i := l_lin lay (step_site (l_size lay) (negb b) dir (l_coord lay 0 j))) in *.
      exists i. split; [|apply in_seq; lia]. unfold g.
      replace (l_node lay (step_site (l_size lay) (negb b) dir (l_coord lay 0 j))) with 0 in C by lia.
      rewrite C. rewrite <- (negb_involutive b) at 1. rewrite step_inv by auto.
      apply lay_inv; auto; lia.
  Qed.

  Lemma C11_all {T} (l : list T) b dir : length l = l_sites lay -> dir < length (l_size lay) ->
    exists l', shift1 lay l (sign_of b) dir = Val l' /\ length l' = l_sites lay /\
               Permutation l l' /\ shift1 lay l' (sign_of (negb b)) dir = Val l.
  Proof.
    intros Hl Hd. destruct (as_stored l Hl) as (phi & ->). rewrite shift1_ok by exact Hd.
    eexists. split; [reflexivity|]. split; [apply stored_length|]. split; [apply shift1_perm; exact Hd|].
    rewrite shift1_ok by exact Hd. f_equal. apply stored_ext; auto; [lia|].
    intros c Hc. rewrite <- (negb_involutive b) at 1. rewrite step_inv by auto. reflexivity.
  Qed.

  Lemma C11_comm {T} (l : list T) b1 b2 d1 d2 : length l = l_sites lay ->
    d1 < length (l_size lay) -> d2 < length (l_size lay) ->
    bind (shift1 lay l (sign_of b1) d1) (fun x => shift1 lay x (sign_of b2) d2) =
    bind (shift1 lay l (sign_of b2) d2) (fun x => shift1 lay x (sign_of b1) d1).
  Proof.
    intros Hl Hd1 Hd2. destruct (as_stored l Hl) as (phi & ->). rewrite !shift1_ok by assumption.
    cbn [bind]. rewrite !shift1_ok by assumption. f_equal. apply stored_ext; auto; [lia|].
    intros c Hc. f_equal. apply step_comm; auto.
  Qed.

  Lemma shift1_iter {T} b dir n : dir < length (l_size lay) -> forall phi : list nat -> T,
    iter_res n (fun x => shift1 lay x (sign_of b) dir) (stored lay phi 0) =
    Val (stored lay (fun c => phi (Nat.iter n (step_site (l_size lay) b dir) c)) 0).
  Proof.
    intros Hd. induction n as [|n IH]; intros phi; cbn [iter_res]; [reflexivity|].
    rewrite shift1_ok by exact Hd. cbn [bind]. rewrite IH. f_equal.
  Qed.

  Lemma C11_cycle {T} (l : list T) b dir : length l = l_sites lay -> dir < length (l_size lay) ->
    iter_res (get (l_size lay) dir) (fun x => shift1 lay x (sign_of b) dir) l = Val l.
  Proof.
    intros Hl Hd. destruct (as_stored l Hl) as (phi & ->). rewrite shift1_iter by exact Hd.
    f_equal. apply stored_ext; auto; [lia|]. intros c Hc. rewrite iter_step; auto.
  Qed.
End Shift1.

(** ** C10 *)
Lemma C10_map {T} lay (phi : list nat -> T) (f : mapfunc) :
  layout_ok lay -> l_nodes lay = 1 -> site_map (l_size lay) (fun c => f c 1%Z) ->
  map_apply1 (map_make1 lay f) (stored lay phi 0) = Val (stored lay (fun c => phi (f c 1%Z)) 0).
Proof. intros. apply map_apply1_ok; assumption. Qed.

Lemma C10_bimap {T} lay (phi : list nat -> T) (f : mapfunc) b :
  layout_ok lay -> l_nodes lay = 1 -> site_map (l_size lay) (fun c => f c (sign_of b)) ->
  bimap_apply1 (bimap_make1 lay f) (stored lay phi 0) (sign_of b) =
  Val (stored lay (fun c => phi (f c (sign_of b))) 0).
Proof.
  intros Hl H1 Hf. unfold bimap_apply1, bimap_make1. destruct b; cbn [sign_of];
  [change (isign_index 1) with (Val 1)|change (isign_index (-1)) with (Val 0)];
  cbn [bind nth_error of_option];
  (rewrite map_apply1_ok; [reflexivity|assumption|assumption|exact Hf]).
Qed.

Lemma C10_arraymap {T} lay (phi : list nat -> T) (f : arrayfunc) n dir :
  layout_ok lay -> l_nodes lay = 1 -> dir < n -> site_map (l_size lay) (fun c => f c 1%Z dir) ->
  arraymap_apply1 (arraymap_make1 lay f n) (stored lay phi 0) dir =
  Val (stored lay (fun c => phi (f c 1%Z dir)) 0).
Proof.
  intros Hl H1 Hd Hf. unfold arraymap_apply1, arraymap_make1. rewrite nth_error_map_seq.
  destruct (dir <? n) eqn:E; [|lia]. cbn [of_option bind]. rewrite map_apply1_ok; auto.
Qed.

Lemma C10_arraybimap {T} lay (phi : list nat -> T) (f : arrayfunc) n b dir :
  layout_ok lay -> l_nodes lay = 1 -> dir < n -> site_map (l_size lay) (fun c => f c (sign_of b) dir) ->
  arraybimap_apply1 (arraybimap_make1 lay f n) (stored lay phi 0) (sign_of b) dir =
  Val (stored lay (fun c => phi (f c (sign_of b) dir)) 0).
Proof.
  intros Hl H1 Hd Hf. unfold arraybimap_apply1, arraybimap_make1.
  destruct b; cbn [sign_of bind isign_index nth_error of_option];
  [change (isign_index 1) with (Val 1)|change (isign_index (-1)) with (Val 0)];
  cbn [bind nth_error of_option]; rewrite nth_error_map_seq;
  (destruct (dir <? n) eqn:E; [|lia]); cbn [of_option bind];
  (rewrite map_apply1_ok; [reflexivity|assumption|assumption|exact Hf]).
Qed.

(** ** Nearest neighbours on several nodes *)
Section ParNN.
  Variables (k : layout_kind) (M : machine) (L : list nat).
  Hypothesis H : admP k M L.

  Lemma nn_one_partner b dir : dir < length L ->
    one_partner (par_layout k M L) (step_site L b dir).
  Proof.
    intros Hdir c d Hc Hd. cbn [par_layout l_size l_node] in *. intros Hcd Hfc Hfd.
    pose proof (par_node k M L H c Hc) as [_ Nc]. pose proof (par_node k M L H d Hd) as [_ Nd].
    rewrite <- Hcd, Nc in Nd.
    pose proof (step_in L b dir c Hc) as Hc'. pose proof (step_in L b dir d Hd) as Hd'.
    assert (Q : forall i, i < length L ->
                get c i / get (subgrid M L) i = get d i / get (subgrid M L) i).
    { intros i Hi. apply (f_equal (fun l => get l i)) in Nd. rewrite !get_map_seq in Nd by exact Hi. exact Nd. }
    destruct (par_S k M L H dir Hdir) as (EL & HS & HG).
    assert (Hc0 := Hc). assert (Hd0 := Hd).
    apply in_lattice_get in Hc as [Lc Gc]. apply in_lattice_get in Hd as [Ld Gd].
    specialize (Gc dir Hdir). specialize (Gd dir Hdir). pose proof (Q dir Hdir) as Qd.
    (* the block in direction dir after the step *)
    assert (Step : forall x, in_lattice L x ->
      nodeNumberP M L (step_site L b dir x) <> nodeNumberP M L x ->
      get (step_site L b dir x) dir / get (subgrid M L) dir =
      let q := get x dir / get (subgrid M L) dir in
      if b then (if S q =? get (mgrid M) dir then 0 else S q)
      else (if q =? 0 then get (mgrid M) dir - 1 else q - 1)).
    { intros x Hx Hne. apply in_lattice_get in Hx as [Lx Gx]. specialize (Gx dir Hdir).
      assert (Hq : get (step_site L b dir x) dir / get (subgrid M L) dir <>
                   get x dir / get (subgrid M L) dir).
      { intros E. apply Hne. unfold nodeNumberP. f_equal. apply map_ext_in. intros i _.
        destruct (Nat.eq_dec i dir) as [->|Hn]; [exact E|]. rewrite step_get_ne by exact Hn. reflexivity. }
      rewrite step_get_eq in Hq |- * by lia. cbv zeta.
      set (s := get (subgrid M L) dir) in *. set (G := get (mgrid M) dir) in *.
      set (X := get x dir) in *. rewrite EL in *.
      pose proof (Nat.div_mod X s ltac:(lia)) as DX.
      pose proof (Nat.mod_upper_bound X s ltac:(lia)) as MX.
      assert (QX : X / s < G) by (apply Nat.div_lt_upper_bound; lia).
      set (q := X / s) in *. set (r := X mod s) in *. clearbody s G X q r. subst X.
      destruct b.
      - destruct (S (s * q + r) =? G * s) eqn:E1.
        + apply Nat.eqb_eq in E1. rewrite Nat.div_0_l by lia.
          destruct (S q =? G) eqn:E2; [reflexivity|]. apply Nat.eqb_neq in E2. nia.
        + apply Nat.eqb_neq in E1.
          assert (r = s - 1).
          { destruct (Nat.eq_dec r (s - 1)); [assumption|]. exfalso. apply Hq.
            replace (S (s * q + r)) with (S r + q * s) by lia. rewrite Nat.div_add by lia.
            rewrite Nat.div_small by lia. reflexivity. }
          replace (S (s * q + r)) with (S q * s) by nia. rewrite Nat.div_mul by lia.
          destruct (S q =? G) eqn:E2; [|reflexivity]. apply Nat.eqb_eq in E2. nia.
      - destruct (s * q + r =? 0) eqn:E1.
        + apply Nat.eqb_eq in E1. assert (q = 0) by nia. subst q.
          replace (G * s - 1) with ((s - 1) + (G - 1) * s) by nia.
          rewrite Nat.div_add by lia. rewrite Nat.div_small by lia. reflexivity.
        + apply Nat.eqb_neq in E1.
          assert (r = 0).
          { destruct (Nat.eq_dec r 0); [assumption|]. exfalso. apply Hq.
            replace (s * q + r - 1) with ((r - 1) + q * s) by lia. rewrite Nat.div_add by lia.
            rewrite Nat.div_small by lia. reflexivity. }
          subst r. assert (q <> 0) by nia.
          replace (s * q + 0 - 1) with ((s - 1) + (q - 1) * s) by nia.
          rewrite Nat.div_add by lia. rewrite Nat.div_small by lia.
          destruct (q =? 0) eqn:E2; [lia|reflexivity]. }
    pose proof (Step c Hc0 Hfc) as Sc.
    pose proof (Step d Hd0 Hfd) as Sd.
    rewrite Qd in Sc. rewrite <- Sd in Sc. unfold nodeNumberP. f_equal. apply map_ext_in.
    intros i Hi. apply in_seq in Hi. destruct (Nat.eq_dec i dir) as [->|Hn]; [exact Sc|].
    rewrite !step_get_ne by exact Hn. apply Q. lia.
  Qed.
End ParNN.


(** The map of the shift operator in direction [dir]. *)
Section ParShift.
  Variables (k : layout_kind) (M : machine) (L : list nat).
  Hypothesis H : admP k M L.
  Variables (b : bool) (dir : nat).
  Hypothesis Hdir : dir < length L.
  Let f := PackageArrayBiDirectionalMapFunc (NearestNeighborMapFunc L) (sign_of b) dir.

  Lemma f_fwd c : in_lattice L c -> f c 1%Z = step_site L b dir c.
  Proof. intros Hc. apply nn_eq; auto. destruct b; reflexivity. Qed.
  Lemma f_bwd c : in_lattice L c -> f c (-1)%Z = step_site L (negb b) dir c.
  Proof. intros Hc. apply nn_eq; auto. destruct b; reflexivity. Qed.

  Lemma f_perm : site_permutation L (fun c => f c 1%Z) (fun c => f c (-1)%Z).
  Proof.
    destruct (step_perm L b dir Hdir) as [A B]. split; intros c Hc; cbn beta.
    - rewrite f_fwd by exact Hc. destruct (A c Hc) as [A1 A2]. rewrite f_bwd by exact A1. auto.
    - rewrite f_bwd by exact Hc. destruct (B c Hc) as [A1 A2]. rewrite f_fwd by exact A1. auto.
  Qed.

  Lemma f_one_f : one_partner (par_layout k M L) (fun c => f c 1%Z).
  Proof.
    intros c d Hc Hd. cbn [par_layout l_size] in *. rewrite !f_fwd by assumption.
    apply (nn_one_partner k M L H b dir Hdir); assumption.
  Qed.
  Lemma f_one_b : one_partner (par_layout k M L) (fun c => f c (-1)%Z).
  Proof.
    intros c d Hc Hd. cbn [par_layout l_size] in *. rewrite !f_bwd by assumption.
    apply (nn_one_partner k M L H (negb b) dir Hdir); assumption.
  Qed.

  Lemma nn_make q : q < num_nodes M -> exists m, map_makeP (par_layout k M L) f q = Val m.
  Proof.
    intros Hq. destruct (make_ok (par_layout k M L) f (par_layout_ok k M L H) f_perm f_one_f f_one_b q Hq)
      as (m & E & _). exists m. exact E.
  Qed.

  Lemma shiftP_ok {T} (phi : list nat -> T) :
    shiftP (par_layout k M L) (stored_all (par_layout k M L) phi) (sign_of b) dir
    = Val (stored_all (par_layout k M L) (fun c => phi (step_site L b dir c))).
  Proof.
    unfold shiftP. cbn [par_layout l_size].
    assert (E : bind (isign_index (sign_of b)) (fun k0 => of_option (nth_error [(-1)%Z; 1%Z] k0)) = Val (sign_of b))
      by (destruct b; reflexivity).
    destruct (isign_index (sign_of b)); [|discriminate|discriminate]. cbn [bind] in *. rewrite E. cbn [bind].
    destruct (dir <? length L) eqn:Ed; [|apply Nat.ltb_ge in Ed; lia].
    change (run_mapP (par_layout k M L) f (stored_all (par_layout k M L) phi) =
            Val (stored_all (par_layout k M L) (fun c => phi (step_site L b dir c)))).
    rewrite (run_ok (par_layout k M L) f (par_layout_ok k M L H) f_perm f_one_f f_one_b phi).
    f_equal. apply stored_all_ext; [apply par_layout_ok; exact H|]. intros c Hc. rewrite f_fwd by exact Hc.
    reflexivity.
  Qed.
End ParShift.

(** One process computes the same field. *)
Lemma same_as_single {T} lay1 lay (f : mapfunc) (phi : list nat -> T) :
  layout_ok lay1 -> l_nodes lay1 = 1 -> layout_ok lay -> l_size lay1 = l_size lay ->
  site_permutation (l_size lay) (fun c => f c 1%Z) (fun c => f c (-1)%Z) ->
  one_partner lay (fun c => f c 1%Z) -> one_partner lay (fun c => f c (-1)%Z) ->
  exists psi, map_apply1 (map_make1 lay1 f) (stored lay1 phi 0) = Val (stored lay1 psi 0) /\
              run_mapP lay f (stored_all lay phi) = Val (stored_all lay psi) /\
              forall c, in_lattice (l_size lay) c -> psi c = phi (f c 1%Z).
Proof.
  intros Hl1 H1 Hl E Hp Hf Hb. exists (fun c => phi (f c 1%Z)). split; [|split].
  - apply map_apply1_ok; auto. rewrite E. intros c Hc. apply Hp. exact Hc.
  - apply run_ok; assumption.
  - reflexivity.
Qed.

(** More than one partner: Map::make aborts. *)
Lemma two_in {A} (x y : A) l : In x l -> In y l -> x <> y -> 2 <= length l.
Proof.
  destruct l as [|a [|b l]]; cbn [In length].
  - tauto.
  - intros [->|[]] [->|[]] H; congruence.
  - lia.
Qed.

Lemma make_abort lay f q c d : layout_ok lay -> q < l_nodes lay ->
  in_lattice (l_size lay) c -> in_lattice (l_size lay) d -> l_node lay c = q -> l_node lay d = q ->
  (exists s, (s = 1 \/ s = -1)%Z /\
     l_node lay (f c s) <> q /\ l_node lay (f d s) <> q /\ l_node lay (f c s) <> l_node lay (f d s)) ->
  map_makeP lay f q = Abort.
Proof.
  intros Hl Hq Hc Hd Ec Ed (s & Hs & Nc & Nd & Ncd). unfold map_makeP.
  pose proof (lay_sites_pos lay Hl) as Hp.
  assert (Hne : forall s0, map (fun i => l_node lay (f (l_coord lay q i) s0)) (seq 0 (l_sites lay)) <> []).
  { intros s0 E. apply (f_equal (@length nat)) in E. rewrite map_length, seq_length in E. cbn in E. lia. }
  rewrite !uniquify_list_eq by apply Hne. cbn [bind].
  assert (Two : 2 <= length (filter (fun n => negb (n =? q))
              (dedupe (map (fun i => l_node lay (f (l_coord lay q i) s)) (seq 0 (l_sites lay)))))).
  { apply (two_in (l_node lay (f c s)) (l_node lay (f d s))); [| |exact Ncd];
    apply filter_In; (split; [|apply negb_true_iff, Nat.eqb_neq; assumption]);
    apply dedupe_In, in_map_iff.
    - destruct (lay_fwd lay Hl c Hc) as (A & B & C). exists (l_lin lay c). rewrite Ec in C.
      rewrite C. split; [reflexivity|apply in_seq; lia].
    - destruct (lay_fwd lay Hl d Hd) as (A & B & C). exists (l_lin lay d). rewrite Ed in C.
      rewrite C. split; [reflexivity|apply in_seq; lia]. }
  set (F1 := filter _ (dedupe (map (fun linear => l_node lay (f (l_coord lay q linear) 1%Z)) _))).
  set (F2 := filter _ (dedupe (map (fun linear => l_node lay (f (l_coord lay q linear) (-1)%Z)) _))).
  assert (T : 2 <= length F1 \/ 2 <= length F2) by (destruct Hs as [->| ->]; [left|right]; exact Two).
  clearbody F1 F2.
  destruct ((0 <? length F1) && (length F2 =? 0)) eqn:E1; [reflexivity|].
  destruct ((length F1 =? 0) && (0 <? length F2)) eqn:E2; [reflexivity|].
  destruct (length F1 =? 0) eqn:E3; [lia|].
  destruct (length F1 =? 1) eqn:E4; cbn [negb]; [|reflexivity].
  destruct (length F2 =? 1) eqn:E5; cbn [negb]; [|reflexivity]. lia.
Qed.

Lemma dedupe_fixed l : NoDup l -> dedupe l = l.
Proof.
  induction 1 as [|x l H1 H2 IH]; cbn [dedupe]; [reflexivity|]. rewrite IH. f_equal.
  rewrite (filter_ext_in _ (fun _ => true)).
  - clear. induction l; cbn; congruence.
  - intros y Hy. apply negb_true_iff, Nat.eqb_neq. intros ->. contradiction.
Qed.

Lemma dedupe_sound ll : ll <> [] ->
  exists d, uniquify_list ll = Val d /\ NoDup d /\ (forall x, In x d <-> In x ll) /\
    (* in order of first occurrence *)
    forall i j x y, nth_error d i = Some x -> nth_error d j = Some y -> i < j ->
      exists a, nth_error ll a = Some x /\ ~ In y (firstn (S a) ll).
Proof.
  intros Hll. exists (dedupe ll). split; [apply uniquify_list_eq; exact Hll|].
  split; [apply dedupe_NoDup|]. split; [intros x; apply dedupe_In|]. clear Hll.
  induction ll as [|z ll IH]; intros i j x y Hi Hj Hij; cbn [dedupe] in *.
  - destruct i; discriminate.
  - destruct j as [|j]; [lia|]. cbn [nth_error] in Hj.
    assert (Hy : y <> z /\ In y (dedupe ll)).
    { apply nth_error_In in Hj. apply filter_In in Hj as [A B].
      apply negb_true_iff, Nat.eqb_neq in B. auto. }
    destruct i as [|i]; cbn [nth_error] in Hi.
    + injection Hi as ->. exists 0. split; [reflexivity|]. cbn [firstn In]. intros [->|[]]. tauto.
    + (* positions in the filtered list come from increasing positions of dedupe ll *)
      assert (Hpos : forall (l : list nat) i j, nth_error (filter (fun w => negb (w =? z)) l) i = Some x ->
          nth_error (filter (fun w => negb (w =? z)) l) j = Some y -> i < j ->
          exists i' j', nth_error l i' = Some x /\ nth_error l j' = Some y /\ i' < j').
      { clear. induction l as [|w l IHl]; intros i j Hi Hj Hij; cbn [filter] in *.
        - destruct i; discriminate.
        - destruct (negb (w =? z)).
          + destruct i as [|i], j as [|j]; cbn [nth_error] in Hi, Hj; try lia.
            * injection Hi as ->. apply nth_error_In in Hj. apply filter_In in Hj as [Hj _].
              apply In_nth_error in Hj as [j' Hj']. exists 0, (S j'). cbn. repeat split; auto. lia.
            * destruct (IHl i j Hi Hj ltac:(lia)) as (i' & j' & A & B & C).
              exists (S i'), (S j'). cbn. repeat split; auto. lia.
          + destruct (IHl i j Hi Hj Hij) as (i' & j' & A & B & C).
            exists (S i'), (S j'). cbn. repeat split; auto. lia. }
      destruct (Hpos _ _ _ Hi Hj ltac:(lia)) as (i' & j' & A & B & C).
      destruct (IH i' j' x y A B C) as (a & Ha & Hn).
      exists (S a). split; [exact Ha|]. cbn [firstn In]. intros [E|E]; [|tauto]. destruct Hy; congruence.
Qed.

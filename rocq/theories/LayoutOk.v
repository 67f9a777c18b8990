(** Every layout of the library is a bijection between lattice sites and
    (node, linear index) pairs. *)
From Coq Require Import List Arith ZArith Bool Lia Permutation.
From Coq Require Import ZifyBool ZifyNat.
From Verif Require Import LayoutModel LayoutSpec LayoutProofs.
Import ListNotations.
Local Open Scope nat_scope.
Ltac Zify.zify_post_hook ::= Z.div_mod_to_equations.

Lemma min_dim_extent k n i : i < n -> get (min_dim k n) i = min_extent k i.
Proof.
  intros Hi. assert (Hr : get (repeat 1 n) i = 1).
  { unfold get. rewrite (nth_indep _ 0 1) by (rewrite repeat_length; auto). apply nth_repeat. }
  destruct k; cbn [min_dim min_extent]; rewrite ?get_upd, ?Hr, ?repeat_length; auto;
    destruct i as [|i]; simpl; auto; destruct n; auto; lia.
Qed.

Lemma num_nodes_volume M : num_nodes M = volume (mgrid M).
Proof. apply vol_volume. Qed.

(** ** Single process *)
Lemma scalar_bij k L : adm1 k L ->
  bijective_between (in_lattice L) (fun i => i < volume L) (linearSiteIndex1 k L) (siteCoords1 k L).
Proof.
  intros (Hn & HL & Hk). destruct k; simpl.
  - unfold ls_lexico, sc_lexico. split; intros.
    + split; [apply local_site_lt|apply crtesn_local_site]; auto.
    + split; [apply crtesn_in|apply local_site_crtesn]; auto.
  - split.
    + intros c Hc. pose proof (in_lattice_length _ _ Hc). rewrite sc_cb2_g, ls_cb2_g by auto.
      split; [apply ls_g_lt|apply ls_g_sc]; auto.
    + intros i Hi. rewrite sc_cb2_g by auto. pose proof (sc_g_in CB2 (length L) L Hn Hn Hk HL i Hi) as Hc.
      split; auto. rewrite ls_cb2_g by (apply (in_lattice_length _ _ Hc)). apply sc_g_ls; auto.
  - destruct Hk as [H2 Hk]. split.
    + intros c Hc. pose proof (in_lattice_length _ _ Hc). rewrite sc_cb3d_g, ls_cb3d_g by auto.
      split; [apply ls_g_lt|apply ls_g_sc]; auto; lia.
    + intros i Hi. rewrite sc_cb3d_g by auto. pose proof (sc_g_in CB3D (length L - 1) L Hn ltac:(lia) Hk HL i Hi) as Hc.
      split; auto. rewrite ls_cb3d_g by (apply (in_lattice_length _ _ Hc)). apply sc_g_ls; auto; lia.
  - split.
    + intros c Hc. split; [apply ls_cb32_lt|apply sc_cb32_ls]; auto.
    + intros i Hi. split; [apply sc_cb32_in|apply ls_cb32_sc]; auto.
Qed.

Lemma scalar_layout_ok k L : adm1 k L -> layout_ok (scalar_layout k L).
Proof.
  intros H. pose proof (scalar_bij k L H) as [B1 B2]. destruct H as (Hn & HL & _).
  split; [exact Hn|]. split; [exact HL|]. split; simpl.
  - intros c Hc. destruct (B1 c Hc). rewrite vol_volume. repeat split; auto.
  - intros [q i] [Hq Hi]; simpl in *. rewrite vol_volume in Hi. destruct (B2 i Hi) as [H1 H2].
    split; auto. f_equal; [lia|auto].
Qed.

Lemma create1_check_ok k L : adm1 k L -> create1_check k L = true.
Proof.
  intros H. apply forallb_forall. intros i Hi. apply in_seq in Hi. rewrite vol_volume in Hi.
  destruct (scalar_bij k L H) as [_ B]. destruct (B i ltac:(lia)) as [_ E]. rewrite E. apply Nat.eqb_refl.
Qed.

(** ** Multi-node layouts *)
Section Par.
  Variables (k : layout_kind) (M : machine) (L : list nat).
  Hypothesis H : admP k M L.
  Let n := length L.
  Let S := subgrid M L.
  Let G := mgrid M.

  Lemma par_n : 0 < n. Proof. apply H. Qed.
  Lemma par_G : length G = n. Proof. apply H. Qed.
  Lemma par_lenS : length S = n. Proof. apply length_map_seq. Qed.

  Lemma par_S i : i < n -> get L i = get G i * get S i /\ 0 < get S i /\ 0 < get G i.
  Proof.
    intros Hi. destruct H as (_ & _ & HL & _ & (HG & _) & Hl & D).
    specialize (D i Hi). specialize (HG i ltac:(rewrite Hl; exact Hi)). specialize (HL i Hi).
    unfold S, subgrid. rewrite get_map_seq by auto. fold G in HG. fold n G in D. fold G.
    destruct D as [q Hq].
    assert (get L i = min_extent k i * q * get G i) as E by lia.
    rewrite E, Nat.div_mul by lia. nia.
  Qed.

  Lemma par_even : k <> LEXICO -> Nat.Even (get S 0).
  Proof.
    intros Hk. destruct H as (_ & Hn & HL & _ & (HG & _) & Hl & D).
    specialize (D 0 Hn). specialize (HG 0 ltac:(rewrite Hl; exact Hn)).
    unfold S, subgrid. rewrite get_map_seq by auto. fold G in HG, D. fold G.
    assert (min_extent k 0 = 2) as E2 by (destruct k; [congruence|..]; reflexivity).
    rewrite E2 in D. destruct D as [q Hq]. exists q.
    rewrite Hq. replace (q * (get G 0 * 2)) with (2 * q * get G 0) by lia. apply Nat.div_mul. lia.
  Qed.

  Lemma par_posS : positive S.
  Proof. intros i Hi. rewrite par_lenS in Hi. apply par_S; auto. Qed.

  Lemma par_node c : in_lattice L c ->
    nodeNumberP M L c < num_nodes M /\
    coord_of M (nodeNumberP M L c) = map (fun i => get c i / get S i) (seq 0 n).
  Proof.
    intros Hc. unfold nodeNumberP. fold S n. apply in_lattice_get in Hc. destruct Hc as [Hl Hc].
    destruct H as (_ & _ & _ & _ & (_ & B & _) & HG & _).
    rewrite num_nodes_volume. apply B. apply in_lattice_get. rewrite length_map_seq. split; [symmetry; apply HG|].
    rewrite HG. intros i Hi. rewrite get_map_seq by auto. specialize (Hc i Hi). fold G.
    destruct (par_S i Hi) as (E & E1 & E2). apply Nat.div_lt_upper_bound; nia.
  Qed.

  Lemma par_node_of c q b : length c = n -> q < num_nodes M -> coord_of M q = b ->
    (forall i, i < n -> get c i / get S i = get b i) -> nodeNumberP M L c = q.
  Proof.
    intros Hl Hq Hb Hi. unfold nodeNumberP. fold S n.
    destruct H as (_ & _ & _ & _ & (_ & _ & B) & HG & _). rewrite num_nodes_volume in Hq. destruct (B q Hq) as [B1 B2].
    rewrite <- B2 at 1. f_equal. apply in_lattice_get in B1.
    apply get_ext; rewrite length_map_seq; [rewrite (proj1 B1); symmetry; apply HG|].
    intros i Hlt. rewrite get_map_seq by auto. rewrite Hi by auto. congruence.
  Qed.

  Lemma par_coord q : q < num_nodes M -> in_lattice G (coord_of M q).
  Proof. intros Hq. destruct H as (_ & _ & _ & _ & (_ & _ & B) & HG & _). rewrite num_nodes_volume in Hq. apply (B q Hq). Qed.

  Lemma vmul_get q i : q < num_nodes M -> i < n ->
    get (vmul (coord_of M q) S) i = get (coord_of M q) i * get S i.
  Proof.
    intros Hq Hi. unfold vmul. rewrite (in_lattice_length _ _ (par_coord q Hq)), par_G.
    rewrite get_map_seq by auto. reflexivity.
  Qed.
  Lemma vmul_len q : q < num_nodes M -> length (vmul (coord_of M q) S) = n.
  Proof.
    intros Hq. unfold vmul. rewrite (in_lattice_length _ _ (par_coord q Hq)), par_G. apply length_map_seq.
  Qed.

  (** a site is determined by its block and the position inside the block *)
  Lemma par_in_lattice c q : length c = n -> q < num_nodes M ->
    (forall i, i < n -> get c i / get S i = get (coord_of M q) i) -> in_lattice L c.
  Proof.
    intros Hl Hq Hd. apply in_lattice_get. split; [auto|]. intros i Hi.
    pose proof (par_coord q Hq) as Hc. apply in_lattice_get in Hc. destruct Hc as [_ Hc].
    specialize (Hc i ltac:(rewrite par_G; auto)). specialize (Hd i Hi).
    destruct (par_S i Hi) as (E & E1 & E2). rewrite E.
    pose proof (Nat.div_mod (get c i) (get S i) ltac:(lia)).
    pose proof (Nat.mod_upper_bound (get c i) (get S i) ltac:(lia)). nia.
  Qed.

  (** lexicographic *)
  Lemma par_lex_fwd c : in_lattice L c ->
    lsP_lexico M L c < sites_on_node M L /\
    scP_lexico M L (nodeNumberP M L c) (lsP_lexico M L c) = c.
  Proof.
    intros Hc. destruct (par_node c Hc) as [Hq Hb]. unfold lsP_lexico, scP_lexico, sites_on_node.
    fold S n. set (t := map _ (seq 0 n)).
    assert (Ht : in_lattice S t).
    { apply in_lattice_get. unfold t. rewrite length_map_seq, par_lenS. split; auto.
      intros i Hi. rewrite get_map_seq by auto. apply Nat.mod_upper_bound. pose proof (par_S i Hi). lia. }
    rewrite vol_volume. split; [apply local_site_lt; auto; rewrite par_lenS; apply par_n|].
    rewrite crtesn_local_site by (auto; rewrite par_lenS; apply par_n).
    apply get_ext; unfold vadd; rewrite length_map_seq, vmul_len by auto.
    - symmetry; apply (in_lattice_length _ _ Hc).
    - intros i Hi. rewrite get_map_seq by auto. rewrite vmul_get by auto. rewrite Hb.
      unfold t. rewrite !get_map_seq by auto.
      pose proof (Nat.div_mod (get c i) (get S i)). pose proof (par_S i Hi). lia.
  Qed.

  Lemma par_lex_bwd q j : q < num_nodes M -> j < sites_on_node M L ->
    in_lattice L (scP_lexico M L q j) /\
    nodeNumberP M L (scP_lexico M L q j) = q /\ lsP_lexico M L (scP_lexico M L q j) = j.
  Proof.
    intros Hq Hj. unfold sites_on_node in Hj. fold S in Hj. rewrite vol_volume in Hj.
    pose proof (crtesn_in LEXICO j S par_posS Hj) as Ht.
    pose proof (local_site_crtesn LEXICO j S ltac:(rewrite par_lenS; apply par_n) par_posS Hj) as Hs.
    set (t := crtesn LEXICO j S) in *. set (c := scP_lexico M L q j).
    assert (Hl : length c = n).
    { unfold c, scP_lexico, vadd. fold S. rewrite length_map_seq. apply vmul_len; auto. }
    assert (Hg : forall i, i < n -> get c i = get (coord_of M q) i * get S i + get t i).
    { intros i Hi. unfold c, scP_lexico, vadd. fold S. rewrite vmul_len by auto.
      rewrite get_map_seq by auto. rewrite vmul_get by auto. reflexivity. }
    apply in_lattice_get in Ht. rewrite par_lenS in Ht. destruct Ht as [Hlt Ht].
    assert (Hd : forall i, i < n -> get c i / get S i = get (coord_of M q) i /\ get c i mod get S i = get t i).
    { intros i Hi. rewrite Hg by auto. specialize (Ht i Hi). 
      rewrite Nat.add_comm, Nat.div_add, Nat.mod_add, Nat.div_small, Nat.mod_small by lia. auto. }
    split; [|split].
    - apply (par_in_lattice c q); auto. intros; apply Hd; auto.
    - apply (par_node_of c q (coord_of M q)); auto. intros; apply Hd; auto.
    - unfold lsP_lexico. fold S n. transitivity (local_site LEXICO t S); [|exact Hs]. f_equal.
      apply get_ext; rewrite length_map_seq; [auto|]. intros i Hi. rewrite get_map_seq by auto. apply Hd; auto.
  Qed.

  (** checkerboarded *)
  Definition lsP_g hi c :=
    local_site k (map (fun i => if i =? 0 then (get c 0 / 2) mod get (halve S) 0
                                else get c i mod get (halve S) i) (seq 0 n)) (halve S)
    + (psum 0 hi c mod 2) * (volume S / 2).
  Definition scP_g hi q j :=
    let t := crtesn k (j mod (volume S / 2)) (halve S) in
    let c0 := vmul (coord_of M q) S in
    let c1 := upd 0 (get c0 0 + 2 * get t 0) c0 in
    let c2 := fold_left (fun c m => upd m (get c m + get t m) c) (seq 1 (n - 1)) c1 in
    upd 0 (get c2 0 + (j / (volume S / 2) + psum 1 (hi - 1) c2) mod 2) c2.

  Section CB.
    Variable hi : nat.
    Hypothesis (Hhi : 0 < hi) (Hev : Nat.Even (get S 0)).
    Let V := volume (halve S).

    Lemma parS0 : 0 < length S. Proof. rewrite par_lenS; apply par_n. Qed.
    Lemma parV : volume S / 2 = V.
    Proof. clear Hhi. pose proof (halve_volume S parS0 Hev). unfold V. lia. Qed.
    Lemma parVpos : 0 < V.
    Proof. apply volume_pos, halve_positive; auto using parS0, par_posS. Qed.

    Definition tt_ c := map (fun i => if i =? 0 then (get c 0 / 2) mod get (halve S) 0
                                else get c i mod get (halve S) i) (seq 0 n).
    Lemma tt_in c : in_lattice (halve S) (tt_ c).
    Proof.
      apply in_lattice_get. rewrite length_halve, par_lenS. unfold tt_. rewrite length_map_seq.
      split; auto. intros i Hi. rewrite get_map_seq by auto.
      pose proof (halve_positive S parS0 Hev par_posS) as P.
      destruct (Nat.eqb_spec i 0) as [->|]; apply Nat.mod_upper_bound;
        [specialize (P 0)|specialize (P i)]; rewrite length_halve, par_lenS in P; specialize (P Hi); lia.
    Qed.
    Lemma tt_get0 c : get (tt_ c) 0 = (get c 0 mod get S 0) / 2.
    Proof.
      unfold tt_. rewrite get_map_seq by apply par_n. simpl Nat.eqb. cbv iota.
      rewrite get_halve0 by apply parS0. destruct Hev as [m Hm]. rewrite Hm.
      pose proof (par_S 0 par_n) as P. rewrite Hm in P.
      replace (2 * m / 2) with m by lia.
      generalize (get c 0). intros x. 
      rewrite (Nat.mod_mul_r x 2 m) by lia.
      pose proof (Nat.mod_upper_bound x 2 ltac:(lia)). generalize dependent (x mod 2). intros r Hr.
      generalize ((x / 2) mod m). intros. lia.
    Qed.
    Lemma tt_get c i : 0 < i < n -> get (tt_ c) i = get c i mod get S i.
    Proof.
      intros Hi. unfold tt_. rewrite get_map_seq by lia. destruct (Nat.eqb_spec i 0); [lia|].
      rewrite get_halve by lia. reflexivity.
    Qed.

    Lemma lsP_g_lt c : lsP_g hi c < volume S.
    Proof.
      unfold lsP_g. fold (tt_ c). rewrite parV, (halve_volume S) by auto using parS0. fold V.
      pose proof (local_site_lt k _ (halve S) ltac:(rewrite length_halve; apply parS0) (tt_in c)) as Hlt.
      fold V in Hlt. pose proof (Nat.mod_upper_bound (psum 0 hi c) 2 ltac:(lia)). nia.
    Qed.

    Lemma scP_g_get q j : q < num_nodes M ->
      let t := crtesn k (j mod V) (halve S) in
      let b := coord_of M q in
      length (scP_g hi q j) = n /\
      (forall i, 0 < i < n -> get (scP_g hi q j) i = get b i * get S i + get t i) /\
      get (scP_g hi q j) 0 = get b 0 * get S 0 + 2 * get t 0 +
         (j / V + psum 1 (hi - 1) (scP_g hi q j)) mod 2.
    Proof.
      intros Hq t b. unfold scP_g. rewrite !parV. fold t. 
      set (c0 := vmul (coord_of M q) S). set (c1 := upd 0 _ c0).
      pose proof (fold_upd (fun m x => x + get t m) 1 (n - 1) c1) as [Hl2 Hg2].
      set (c2 := fold_left _ _ c1) in *.
      assert (Hl0 : length c0 = n) by (apply vmul_len; auto).
      assert (Hl1 : length c1 = n) by (unfold c1; rewrite length_upd; auto).
      pose proof par_n as Hn.
      split; [rewrite length_upd; congruence|]. split.
      - intros i Hi. rewrite get_upd_ne by lia. rewrite Hg2, Hl1.
        destruct (Nat.leb_spec 1 i), (Nat.ltb_spec i (1 + (n - 1))), (Nat.ltb_spec i n); try lia. simpl.
        unfold c1. rewrite get_upd_ne by lia. unfold c0. rewrite vmul_get by (auto; lia). reflexivity.
      - rewrite get_upd_eq by lia. rewrite psum_upd0 by lia. f_equal.
        rewrite Hg2. simpl. unfold c1. rewrite get_upd_eq by lia. unfold c0. rewrite vmul_get by auto. fold b. lia.
    Qed.

    Lemma scP_g_fwd c : in_lattice L c -> scP_g hi (nodeNumberP M L c) (lsP_g hi c) = c.
    Proof.
      intros Hc. destruct (par_node c Hc) as [Hq Hb].
      destruct (scP_g_get (nodeNumberP M L c) (lsP_g hi c) Hq) as (Hl & Hi & H0).
      pose proof (in_lattice_length _ _ Hc) as Hlc.
      pose proof (local_site_lt k _ (halve S) ltac:(rewrite length_halve; apply parS0) (tt_in c)) as Hlt. fold V in Hlt.
      pose proof (crtesn_local_site k _ (halve S) ltac:(rewrite length_halve; apply parS0) (tt_in c)) as Hcl.
      assert (Hm : lsP_g hi c mod V = local_site k (tt_ c) (halve S)).
      { unfold lsP_g. fold (tt_ c). rewrite parV, Nat.mod_add, Nat.mod_small by lia. reflexivity. }
      assert (Hd : lsP_g hi c / V = psum 0 hi c mod 2).
      { unfold lsP_g. fold (tt_ c). rewrite parV, Nat.div_add, Nat.div_small by lia. reflexivity. }
      rewrite Hm, Hcl, Hd, Hb in *.
      set (r := scP_g hi _ _) in *.
      assert (E : forall i, 0 < i -> get r i = get c i).
      { intros i Hi0. destruct (Nat.lt_ge_cases i n) as [Hin|Hin]; [|rewrite !get_overflow by (rewrite ?Hlc; lia); auto].
        rewrite Hi by lia. rewrite tt_get by lia. rewrite get_map_seq by lia.
        pose proof (Nat.div_mod (get c i) (get S i)). pose proof (par_S i Hin). lia. }
      apply get_ext; [lia|]. intros i Hlt'. destruct i as [|i]; [|apply E; lia].
      rewrite H0, tt_get0, get_map_seq by apply par_n.
      assert (psum 1 (hi - 1) r = psum 1 (hi - 1) c) as ->.
      { apply sum_ext. intros x Hx. apply in_seq in Hx. apply E. lia. }
      rewrite psum_split by auto. destruct (par_S 0 par_n) as (_ & P & _). destruct Hev as [m Hm2].
      pose proof (Nat.div_mod (get c 0) (get S 0) ltac:(lia)) as D.
      remember (get c 0 mod get S 0) as r0 eqn:Er. remember (get c 0 / get S 0) as d eqn:Ed.
      assert (Hpar : get c 0 mod 2 = r0 mod 2).
      { rewrite D, Hm2. replace (2 * m * d + r0) with (r0 + (m * d) * 2) by lia. apply Nat.mod_add. lia. }
      remember (psum 1 (hi - 1) c) as s eqn:Es. remember (get c 0) as x eqn:Ex.
      assert (((x + s) mod 2 + s) mod 2 = x mod 2) as -> by (clear; lia).
      rewrite Hpar. transitivity (get S 0 * d + r0); [|auto]. clear. lia.
    Qed.

    Lemma scP_g_bwd q j : q < num_nodes M -> j < volume S ->
      in_lattice L (scP_g hi q j) /\ nodeNumberP M L (scP_g hi q j) = q /\ lsP_g hi (scP_g hi q j) = j.
    Proof.
      intros Hq Hj. rewrite (halve_volume S) in Hj by auto using parS0. fold V in Hj.
      pose proof parVpos as HV.
      pose proof (Nat.mod_upper_bound j V ltac:(lia)) as Hm.
      pose proof (halve_positive S parS0 Hev par_posS) as HP.
      pose proof (crtesn_in k (j mod V) (halve S) HP Hm) as Ht.
      pose proof (local_site_crtesn k (j mod V) (halve S) ltac:(rewrite length_halve; apply parS0) HP Hm) as Hs.
      destruct (scP_g_get q j Hq) as (Hl & Hi & H0).
      set (t := crtesn k (j mod V) (halve S)) in *. set (c := scP_g hi q j) in *.
      apply in_lattice_get in Ht. rewrite length_halve, par_lenS in Ht. destruct Ht as [Hlt Ht].
      set (e := (j / V + psum 1 (hi - 1) c) mod 2) in *.
      assert (He : e < 2) by (apply Nat.mod_upper_bound; lia).
      assert (R : forall i, i < n -> exists r, get c i = get (coord_of M q) i * get S i + r /\ r < get S i /\
                    (0 < i -> r = get t i) /\ (i = 0 -> r / 2 = get t 0)).
      { intros i Hin. specialize (Ht i Hin). destruct (Nat.eq_dec i 0) as [->|Hne].
        - exists (2 * get t 0 + e). rewrite get_halve0 in Ht by apply parS0. destruct Hev as [m Hm2].
          repeat split; lia.
        - exists (get t i). rewrite get_halve in Ht by lia. repeat split; try lia. rewrite Hi by lia. reflexivity. }
      assert (Hd : forall i, i < n -> get c i / get S i = get (coord_of M q) i).
      { intros i Hin. destruct (R i Hin) as (r & E & Hr & _). rewrite E, Nat.add_comm, Nat.div_add, Nat.div_small by lia. lia. }
      assert (Hmd : forall i, i < n -> (0 < i -> get c i mod get S i = get t i) /\ (i = 0 -> (get c 0 mod get S 0) / 2 = get t 0)).
      { intros i Hin. destruct (R i Hin) as (r & E & Hr & E1 & E2). split; intros Hi0.
        - rewrite E, Nat.add_comm, Nat.mod_add, Nat.mod_small by lia. auto.
        - subst i. rewrite E, Nat.add_comm, Nat.mod_add, Nat.mod_small by lia. auto. }
      split; [|split].
      - apply (par_in_lattice c q); auto.
      - apply (par_node_of c q (coord_of M q)); auto.
      - unfold lsP_g. fold (tt_ c). rewrite parV.
        assert (tt_ c = t) as ->.
        { apply get_ext; [unfold tt_; rewrite length_map_seq; auto|]. unfold tt_ at 1. rewrite length_map_seq.
          intros i Hin. destruct i as [|i]; [rewrite tt_get0; apply (Hmd 0); auto|].
          rewrite tt_get by lia. apply Hmd; lia. }
        rewrite Hs. rewrite psum_split by auto. rewrite H0.
        assert (j / V < 2) by (apply Nat.div_lt_upper_bound; lia).
        pose proof (Nat.div_mod j V ltac:(lia)) as D. unfold e.
        destruct Hev as [m Hm2]. rewrite Hm2.
        replace (get (coord_of M q) 0 * (2 * m)) with (2 * (get (coord_of M q) 0 * m)) by lia.
        generalize dependent (j / V). generalize (j mod V) (psum 1 (hi - 1) c) (get (coord_of M q) 0 * m) (get t 0).
        clear. intros r s a b d e _ _ Hd D.
        replace ((2 * a + 2 * b + (d + s) mod 2 + s) mod 2) with d by (clear -Hd; lia). lia.
    Qed.

    Lemma lsP_g_colour c : lsP_g hi c / (volume S / 2) = psum 0 hi c mod 2.
    Proof.
      pose proof (local_site_lt k _ (halve S) ltac:(rewrite length_halve; apply parS0) (tt_in c)) as Hlt. fold V in Hlt.
      unfold lsP_g. fold (tt_ c). rewrite parV. rewrite Nat.div_add, Nat.div_small by lia. reflexivity.
    Qed.
  End CB.

  Definition hi_of := match k with CB3D => n - 1 | _ => n end.

  Lemma lsP_eq c : k <> LEXICO -> linearSiteIndexP k M L c = lsP_g hi_of c.
  Proof.
    unfold lsP_g, hi_of. intros Hk. pose proof (proj1 H) as HK.
    destruct k; try congruence; try discriminate; simpl.
    - unfold lsP_cb2. fold n S. unfold sites_on_node. fold S. rewrite vol_volume, land1, fold_sum, !shiftr1. fold (halve S).
      reflexivity.
    - unfold lsP_cb3d. fold n S. unfold sites_on_node. fold S. rewrite vol_volume, land1, fold_sum. reflexivity.
  Qed.
  Lemma scP_eq q j : k <> LEXICO -> siteCoordsP k M L q j = scP_g hi_of q j.
  Proof.
    unfold scP_g, hi_of. intros Hk. pose proof (proj1 H) as HK.
    destruct k; try congruence; try discriminate; simpl.
    - unfold scP_cb2. fold n S. unfold sites_on_node. fold S. rewrite vol_volume, land1, fold_sum, !shiftr1. fold (halve S).
      reflexivity.
    - unfold scP_cb3d. fold n S. unfold sites_on_node. fold S. rewrite vol_volume, land1, fold_sum. reflexivity.
  Qed.

  Lemma hi_pos : k <> LEXICO -> 0 < hi_of.
  Proof.
    intros Hk. unfold hi_of. pose proof par_n. destruct H as (_ & _ & _ & H3 & _).
    destruct k; auto. specialize (H3 eq_refl). fold n in H3. lia.
  Qed.

  Lemma par_layout_ok : layout_ok (par_layout k M L).
  Proof.
    split; [apply H|]. split; [apply H|].
    assert (D : k = LEXICO \/ k <> LEXICO) by (destruct k; auto; right; discriminate).
    split.
    - intros c Hc. cbn [par_layout l_nodes l_sites l_node l_lin l_coord fst snd] in *.
      split; [split; [apply (par_node c Hc)|]|].
      + destruct D as [E|E].
        * rewrite E. apply par_lex_fwd; auto.
        * rewrite lsP_eq by auto. unfold sites_on_node. rewrite vol_volume.
          apply lsP_g_lt; auto using hi_pos, par_even.
      + destruct D as [E|E].
        * rewrite E. simpl. apply par_lex_fwd; auto.
        * rewrite lsP_eq, scP_eq by auto. apply scP_g_fwd; auto using hi_pos, par_even.
    - intros [q j] [Hq Hj]. cbn [par_layout l_nodes l_sites l_node l_lin l_coord fst snd] in *.
      destruct D as [E|E].
      + rewrite E. simpl. destruct (par_lex_bwd q j Hq Hj) as (A1 & A2 & A3). rewrite A2, A3. auto.
      + rewrite lsP_eq, scP_eq by auto. unfold sites_on_node in Hj. rewrite vol_volume in Hj.
        destruct (scP_g_bwd hi_of (hi_pos E) (par_even E) q j Hq Hj) as (A1 & A2 & A3).
        rewrite A2, A3. auto.
  Qed.
End Par.

(** ** C03: contiguity *)
Lemma cb_div_iff (V i b : nat) : 0 < V -> (i / V = b <-> b * V <= i < (b + 1) * V).
Proof.
  intros HV. split.
  - intros <-. pose proof (Nat.div_mod i V ltac:(lia)). pose proof (Nat.mod_upper_bound i V ltac:(lia)). nia.
  - intros Hi. symmetry. apply (Nat.div_unique i V b (i - b * V)); nia.
Qed.

Lemma scalar_cb2_colour L c : adm1 CB2 L -> in_lattice L c ->
  linearSiteIndex1 CB2 L c / (volume L / 2) = coord_sum (length L) c mod 2.
Proof.
  intros (Hn & HL & Hk) Hc. simpl. pose proof (in_lattice_length _ _ Hc) as Hl.
  rewrite ls_cb2_g by auto. rewrite ls_g_colour by auto. rewrite psum_coord_sum by lia. reflexivity.
Qed.

Lemma scalar_cb3d_colour L c : adm1 CB3D L -> in_lattice L c ->
  linearSiteIndex1 CB3D L c / (volume L / 2) = coord_sum (length L - 1) c mod 2.
Proof.
  intros (Hn & HL & H2 & Hk) Hc. simpl. pose proof (in_lattice_length _ _ Hc) as Hl.
  rewrite ls_cb3d_g by auto. rewrite ls_g_colour by (auto; lia). rewrite psum_coord_sum by lia. reflexivity.
Qed.

Lemma scalar_cb32_colour L c : adm1 CB32 L -> in_lattice L c ->
  linearSiteIndex1 CB32 L c / (volume L / 2 ^ (length L + 1)) = colour32 c.
Proof.
  intros (Hn & HL & Hk) Hc. simpl. rewrite cb32_volume by auto.
  rewrite Nat.mul_comm, Nat.div_mul by (apply Nat.pow_nonzero; lia). apply ls_cb32_colour; auto.
Qed.

Lemma par_cb2_colour M L c : admP CB2 M L -> in_lattice L c ->
  linearSiteIndexP CB2 M L c / (sites_on_node M L / 2) = coord_sum (length L) c mod 2.
Proof.
  intros HP Hc. pose proof (in_lattice_length _ _ Hc) as Hl.
  unfold sites_on_node. rewrite vol_volume.
  rewrite (lsP_eq CB2 M L HP) by discriminate.
  rewrite (lsP_g_colour CB2 M L HP) by first [apply (par_even CB2 M L HP); discriminate | apply (hi_pos CB2 M L HP); discriminate].
  unfold hi_of. rewrite psum_coord_sum by lia. reflexivity.
Qed.

Lemma par_cb3d_colour M L c : admP CB3D M L -> in_lattice L c ->
  linearSiteIndexP CB3D M L c / (sites_on_node M L / 2) = coord_sum (length L - 1) c mod 2.
Proof.
  intros HP Hc. pose proof (in_lattice_length _ _ Hc) as Hl.
  unfold sites_on_node. rewrite vol_volume.
  rewrite (lsP_eq CB3D M L HP) by discriminate.
  rewrite (lsP_g_colour CB3D M L HP) by first [apply (par_even CB3D M L HP); discriminate | apply (hi_pos CB3D M L HP); discriminate].
  unfold hi_of. rewrite psum_coord_sum by lia. reflexivity.
Qed.

(** ** C05: create accepts exactly the admissible lattices *)
Lemma crtesn_in_any k p L : positive L -> in_lattice L (crtesn k p L).
Proof.
  intros HL. unfold crtesn.
  destruct (crt_fold (crt_dims k (length L)) L (crt_dims_NoDup _ _) p (repeat 0 (length L)))
    as (H1 & _ & H3 & _).
  { intros d Hd. apply crt_dims_in in Hd. rewrite repeat_length. split; auto. }
  rewrite repeat_length in H1. apply in_lattice_get. split; auto.
  intros i Hi. apply H3. apply crt_dims_in; auto.
Qed.

Lemma has_zero_false L : has_zero L = false -> positive L.
Proof.
  intros H i Hi. unfold has_zero in H.
  destruct (get L i) eqn:E; [|lia]. exfalso.
  assert (existsb (fun l => l =? 0) L = true); [|congruence].
  apply existsb_exists. exists 0. split; [|reflexivity]. rewrite <- E. apply nth_In; auto.
Qed.

Lemma has_zero_true L : positive L -> has_zero L = false.
Proof.
  intros H. unfold has_zero. destruct (existsb _ L) eqn:E; [|reflexivity]. exfalso.
  apply existsb_exists in E. destruct E as [x [Hin Hx]]. apply Nat.eqb_eq in Hx. subst x.
  rewrite positive_Forall, Forall_forall in H. specialize (H 0 Hin). lia.
Qed.

Lemma halve_volume_odd L : 0 < length L -> ~ Nat.Even (get L 0) ->
  volume L = 2 * volume (halve L) + volume (tl L).
Proof.
  destruct L as [|l L]; cbn [length]; [lia|]. intros _ Ho. change (get (l :: L) 0) with l in Ho.
  change (halve (l :: L)) with (l / 2 :: L). cbn [volume tl].
  destruct (Nat.Even_or_Odd l) as [?|[m Hm]]; [tauto|].
  assert (l / 2 = m) as -> by lia. subst l. lia.
Qed.

Lemma ls_g_sc_bound k hi L i : 0 < length L -> positive (halve L) ->
  ls_g k hi L (sc_g k hi L i) < volume (halve L) + volume L / 2.
Proof.
  intros Hn HP. unfold ls_g, sc_g. set (V := volume L / 2).
  pose proof (crtesn_in_any k (i mod V) (halve L) HP) as Hc.
  set (c := crtesn k (i mod V) (halve L)) in *.
  pose proof (in_lattice_length _ _ Hc) as Hl. rewrite length_halve in Hl.
  rewrite get_upd_eq by lia. rewrite upd0_upd0.
  assert (((2 * get c 0 + (i / V + psum 1 (hi - 1) c) mod 2) / 2) = get c 0) as ->.
  { pose proof (Nat.mod_upper_bound (i / V + psum 1 (hi - 1) c) 2 ltac:(lia)). lia. }
  rewrite upd_same0 by lia.
  pose proof (local_site_lt k c (halve L) ltac:(rewrite length_halve; auto) Hc).
  set (e := psum 0 hi _ mod 2). assert (e < 2) by (apply Nat.mod_upper_bound; lia). nia.
Qed.

Lemma sc_cb2_g' L i : 0 < length L -> positive (halve L) ->
  sc_cb2 L i = sc_g CB2 (length L) L i.
Proof.
  intros Hn HP. unfold sc_cb2, sc_g. rewrite shiftr1, vol_volume, land1, fold_sum.
  rewrite shiftr1. fold (halve L). rewrite length_crtesn, length_halve by auto. reflexivity.
Qed.
Lemma sc_cb3d_g' L i : 0 < length L -> positive (halve L) ->
  sc_cb3d L i = sc_g CB3D (length L - 1) L i.
Proof.
  intros Hn HP. unfold sc_cb3d, sc_g. rewrite vol_volume, land1, fold_sum.
  fold (halve L). rewrite length_crtesn, length_halve by auto. reflexivity.
Qed.

Lemma length_sc_g k hi L i : positive (halve L) -> length (sc_g k hi L i) = length L.
Proof. intros HP. unfold sc_g. rewrite length_upd, length_crtesn by auto. apply length_halve. Qed.

Lemma create1_check_last k L : 0 < volume L -> create1_check k L = true ->
  linearSiteIndex1 k L (siteCoords1 k L (volume L - 1)) = volume L - 1.
Proof.
  intros HV H. unfold create1_check in H. rewrite forallb_forall in H.
  specialize (H (volume L - 1)). rewrite vol_volume in H.
  symmetry. apply Nat.eqb_eq, H. apply in_seq. lia.
Qed.

Lemma prodd_le_double L L' ds : (forall i, In i ds -> 2 * get L' i <= get L i) ->
  2 ^ length ds * prodd ds L' <= prodd ds L.
Proof.
  induction ds as [|d ds IH]; intros H; cbn [length prodd Nat.pow]; [lia|].
  assert (2 * get L' d <= get L d) by (apply H; left; auto).
  assert (2 ^ length ds * prodd ds L' <= prodd ds L) by (apply IH; intros; apply H; right; auto). nia.
Qed.

Lemma prodd_eq_double L L' ds : (forall i, In i ds -> 2 * get L' i <= get L i /\ 0 < get L' i) ->
  2 ^ length ds * prodd ds L' = prodd ds L -> forall i, In i ds -> get L i = 2 * get L' i.
Proof.
  induction ds as [|d ds IH]; intros H E; cbn [length prodd Nat.pow] in *; [simpl; tauto|].
  destruct (H d (or_introl eq_refl)) as [H1 H2].
  assert (H3 : 2 ^ length ds * prodd ds L' <= prodd ds L).
  { apply prodd_le_double. intros; apply H; right; auto. }
  assert (H4 : 0 < 2 ^ length ds * prodd ds L').
  { apply Nat.mul_pos_pos; [pose proof (Nat.pow_nonzero 2 (length ds)); lia|].
    clear - H. assert (forall i, In i ds -> 0 < get L' i) as G by (intros; apply H; right; auto).
    clear H. induction ds as [|x ds IH]; cbn [prodd]; [lia|].
    apply Nat.mul_pos_pos; [apply G; left; auto|apply IH; intros; apply G; right; auto]. }
  set (A := 2 ^ length ds * prodd ds L') in *. set (B := prodd ds L) in *.
  assert (E' : 2 * get L' d * A = get L d * B).
  { unfold A. rewrite <- E. ring. }
  assert (get L d = 2 * get L' d) by nia.
  assert (A = B) by nia.
  intros i [<-|Hi]; auto. apply IH; auto; intros; apply H; right; auto.
Qed.

Lemma cb32_volume_le L : 0 < length L -> positive (cb32_nrow L) ->
  2 ^ (length L + 1) * volume (cb32_nrow L) <= volume L /\
  (2 ^ (length L + 1) * volume (cb32_nrow L) = volume L -> admissible32 L).
Proof.
  intros Hn HP. rewrite <- !prodd_seq, length_cb32.
  assert (HP' : forall i, i < length L -> 0 < get (cb32_nrow L) i).
  { intros i Hi. apply HP. rewrite length_cb32. auto. }
  unfold admissible32.
  destruct (length L) as [|n] eqn:En; [lia|]. cbn [seq prodd].
  assert (H : forall i, In i (seq 1 n) -> 2 * get (cb32_nrow L) i <= get L i /\ 0 < get (cb32_nrow L) i).
  { intros i Hi. apply in_seq in Hi. split; [|apply HP'; lia]. rewrite get_cb32 by lia. lia. }
  pose proof (prodd_le_double L (cb32_nrow L) (seq 1 n) ltac:(intros; apply H; auto)) as H1.
  pose proof (prodd_eq_double L (cb32_nrow L) (seq 1 n) H) as H2. rewrite seq_length in *.
  specialize (HP' 0 ltac:(lia)). pose proof (get_cb32_0 L ltac:(lia)) as E0.
  assert (B : 4 * get (cb32_nrow L) 0 <= get L 0) by lia.
  assert (Hpos : 0 < 2 ^ n * prodd (seq 1 n) (cb32_nrow L)).
  { apply Nat.mul_pos_pos; [pose proof (Nat.pow_nonzero 2 n); lia|].
    clear - H. assert (forall i, In i (seq 1 n) -> 0 < get (cb32_nrow L) i) as G by (intros; apply H; auto).
    clear H. induction (seq 1 n) as [|x ds IH]; cbn [prodd]; [lia|].
    apply Nat.mul_pos_pos; [apply G; left; auto|apply IH; intros; apply G; right; auto]. }
  replace (S n + 1) with (S (S n)) by lia. rewrite !Nat.pow_succ_r by lia.
  set (A := 2 ^ n * prodd (seq 1 n) (cb32_nrow L)) in *. set (C := prodd (seq 1 n) L) in *.
  replace (2 * (2 * 2 ^ n) * (get (cb32_nrow L) 0 * prodd (seq 1 n) (cb32_nrow L)))
    with (4 * get (cb32_nrow L) 0 * A) by (unfold A; ring).
  split; [nia|]. intros E.
  assert (get L 0 = 4 * get (cb32_nrow L) 0) by nia. assert (A = C) by nia.
  split; [exists (get (cb32_nrow L) 0); lia|]. intros i Hi.
  exists (get (cb32_nrow L) i). rewrite H2 by (auto; apply in_seq; lia). lia.
Qed.

Lemma ls_cb32_sc_bound L i : 0 < length L -> positive (cb32_nrow L) ->
  ls_cb32 L (sc_cb32 L i) < volume (cb32_nrow L) + (2 ^ (length L + 1) - 1) * (Nat.shiftr (vol L) (length L + 1)).
Proof.
  intros Hn HP. unfold ls_cb32. set (n := length L) in *.
  set (V := Nat.shiftr (vol L) (n + 1)).
  (* the divided coordinates are those produced by crtesn *)
  assert (E : exists c, in_lattice (cb32_nrow L) c /\
     map (fun j => if j =? 0 then Nat.shiftr (get (sc_cb32 L i) 0) 2
                   else Nat.shiftr (get (sc_cb32 L i) j) 1) (seq 0 n) = c).
  { set (c := crtesn CB32 (i mod V) (cb32_nrow L)).
    pose proof (crtesn_in_any CB32 (i mod V) (cb32_nrow L) HP) as Hc. fold c in Hc.
    exists c. split; auto.
    pose proof (in_lattice_length _ _ Hc) as Hlc. rewrite length_cb32 in Hlc. fold n in Hlc.
    assert (G : (exists a, a < 4 /\ get (sc_cb32 L i) 0 = 4 * get c 0 + a) /\
                forall m, 0 < m < n -> exists a, a < 2 /\ get (sc_cb32 L i) m = 2 * get c m + a).
    { unfold sc_cb32. fold n. fold V. fold c. rewrite fold_sum, land1, Nat.add_0_l.
      set (p := list_sum _ mod 2).
      set (c1 := upd 0 (Nat.shiftl (get c 0) 2) c).
      pose proof (fold_upd (fun _ x => Nat.shiftl x 1) 1 (n - 1) c1) as [Hl2 Hg2].
      set (c2 := fold_left _ (seq 1 (n - 1)) c1) in *.
      set (s := Nat.lxor (i / V) (Nat.shiftl p n)).
      pose proof (fold_upd (fun m x => Nat.lxor x (Nat.shiftr (Nat.land s (Nat.shiftl 1 m)) m)) 0 n c2) as [Hl3 Hg3].
      set (c3 := fold_left _ (seq 0 n) c2) in *.
      assert (length c1 = n) as Hl1 by (unfold c1; rewrite length_upd; auto).
      assert (length c2 = n) by congruence. assert (length c3 = n) by congruence.
      assert (E3 : forall m, m < n -> get c3 m = Nat.lxor (get c2 m) (bit s m)).
      { intros m Hm. rewrite Hg3, H. destruct (Nat.leb_spec 0 m), (Nat.ltb_spec m (0 + n)), (Nat.ltb_spec m n); try lia.
        simpl. rewrite land_bit. reflexivity. }
      split.
      - exists (2 * bit s n + bit s 0). pose proof (bit_lt s n). pose proof (bit_lt s 0). split; [lia|].
        rewrite get_upd_eq by lia. rewrite E3 by lia. rewrite Hg2, Hl1.
        cbn [Nat.leb andb]. unfold c1 at 1. rewrite get_upd_eq by lia.
        rewrite Nat.shiftl_mul_pow2. replace (get c 0 * 2 ^ 2) with (2 * (2 * get c 0)) by (simpl; lia).
        rewrite lxor_even_bit by apply bit_lt. rewrite land_bit2 by auto.
        replace (2 * (2 * get c 0) + bit s 0) with (4 * get c 0 + bit s 0) by lia.
        rewrite lxor_4 by apply bit_lt. lia.
      - intros m Hm. exists (bit s m). pose proof (bit_lt s m). split; [lia|].
        rewrite get_upd_ne by lia. rewrite E3 by lia. rewrite Hg2, Hl1.
        destruct (Nat.leb_spec 1 m), (Nat.ltb_spec m (1 + (n - 1))), (Nat.ltb_spec m n); try lia. simpl andb. cbv iota.
        unfold c1. rewrite get_upd_ne by lia. rewrite Nat.shiftl_mul_pow2.
        replace (get c m * 2 ^ 1) with (2 * get c m) by (simpl; lia).
        apply lxor_even_bit, bit_lt. }
    destruct G as [[a0 [Ha0 G0]] G].
    apply get_ext; rewrite length_map_seq; [auto|]. intros m Hm. rewrite get_map_seq by auto.
    destruct (Nat.eqb_spec m 0) as [->|Hne].
    - rewrite Nat.shiftr_div_pow2, G0. change (2 ^ 2) with 4. lia.
    - destruct (G m ltac:(lia)) as [a [Ha ->]]. rewrite shiftr1. lia. }
  destruct E as [c [Hc ->]].
  pose proof (local_site_lt CB32 c (cb32_nrow L) ltac:(rewrite length_cb32; auto) Hc) as Hlt.
  set (r := sc_cb32 L i).
  set (sb := fold_left _ (rev (seq 0 (n - 1))) _).
  assert (Hsb : sb < 2 ^ n).
  { unfold sb. clear - Hn. rewrite <- fold_left_rev_right, rev_involutive.
    replace (2 ^ n) with (2 * 2 ^ (n - 1)) by (rewrite <- Nat.pow_succ_r by lia; f_equal; unfold n; lia).
    assert (G : forall l a, a < 2 -> fold_right (fun y x => Nat.shiftl x 1 + Nat.land (get r y) 1) a l < 2 * 2 ^ length l).
    { induction l as [|x l IH]; intros a Ha; cbn [fold_right length Nat.pow]; [lia|].
      specialize (IH a Ha). rewrite Nat.shiftl_mul_pow2, land1. change (2 ^ 1) with 2.
      pose proof (Nat.mod_upper_bound (get r x) 2 ltac:(lia)). lia. }
    specialize (G (seq 0 (n - 1)) (Nat.land (get r (n - 1)) 1)). rewrite seq_length in G. apply G.
    rewrite land1. apply Nat.mod_upper_bound. lia. }
  set (cb := Nat.land _ 1). assert (Hcb : cb < 2) by (unfold cb; rewrite land1; apply Nat.mod_upper_bound; lia).
  clearbody sb cb. clear - Hlt Hsb Hcb. rewrite Nat.shiftl_mul_pow2.
  rewrite Nat.add_1_r, Nat.pow_succ_r by lia.
  assert (sb + cb * 2 ^ n <= 2 * 2 ^ n - 1) by nia. nia.
Qed.

Lemma create1_iff k L : 0 < length L -> positive L -> (create1 k L = Created <-> adm1 k L).
Proof.
  intros Hn HL. pose proof (volume_pos L HL) as HV. unfold create1. rewrite vol_volume.
  destruct (Nat.eqb_spec (volume L) 0) as [|_]; [lia|]. split.
  - destruct (divides_by_zero k L) eqn:Ez; [discriminate|].
    destruct (create1_check k L) eqn:Ec; [|discriminate]. intros _.
    pose proof (create1_check_last k L HV Ec) as Hlast.
    split; [auto|]. split; [auto|]. destruct k; auto.
    + (* CB2 *)
      cbn [divides_by_zero] in Ez. rewrite !shiftr1 in Ez. apply orb_false_iff in Ez. destruct Ez as [_ Ez].
      apply has_zero_false in Ez. fold (halve L) in Ez.
      destruct (Nat.Even_Odd_dec (get L 0)) as [?|Ho]; auto. exfalso.
      assert (Hne : ~ Nat.Even (get L 0)) by (intros E; apply (Nat.Even_Odd_False (get L 0)); auto).
      cbn [linearSiteIndex1 siteCoords1] in Hlast. rewrite sc_cb2_g' in Hlast by auto.
      rewrite ls_cb2_g in Hlast by (rewrite length_sc_g by auto; auto).
      pose proof (ls_g_sc_bound CB2 (length L) L (volume L - 1) Hn Ez) as B.
      rewrite Hlast in B. pose proof (halve_volume_odd L Hn Hne) as E.
      assert (0 < volume (tl L)).
      { apply volume_pos. intros i Hi. specialize (HL (S i)). destruct L; simpl in *; [lia|]. apply HL. lia. }
      lia.
    + (* CB3D *)
      cbn [divides_by_zero] in Ez. apply orb_false_iff in Ez. destruct Ez as [Ev Ez].
      apply has_zero_false in Ez. fold (halve L) in Ez.
      cbn [linearSiteIndex1 siteCoords1] in Hlast. rewrite sc_cb3d_g' in Hlast by auto.
      rewrite ls_cb3d_g in Hlast by (rewrite length_sc_g by auto; auto).
      split.
      * destruct (Nat.le_gt_cases 2 (length L)) as [?|Hlt]; auto. exfalso.
        assert (length L - 1 = 0) as E1 by lia. rewrite E1 in Hlast.
        assert (ls_g CB3D 0 L (sc_g CB3D 0 L (volume L - 1)) < volume (halve L)) as B.
        { unfold ls_g. change (psum 0 0 _) with 0. rewrite Nat.mod_0_l, Nat.mul_0_l, Nat.add_0_r by lia.
          unfold sc_g. set (V := volume L / 2).
          pose proof (crtesn_in_any CB3D ((volume L - 1) mod V) (halve L) Ez) as Hc.
          set (c := crtesn _ _ _) in *.
          pose proof (in_lattice_length _ _ Hc) as Hl. rewrite length_halve in Hl.
          rewrite get_upd_eq by lia. rewrite upd0_upd0.
          set (q := (volume L - 1) / V + psum 1 (0 - 1) c).
          assert (((2 * get c 0 + q mod 2) / 2) = get c 0) as -> by lia.
          rewrite upd_same0 by lia.
          apply (local_site_lt CB3D c (halve L)); auto. rewrite length_halve; auto. }
        assert (2 * volume (halve L) <= volume L).
        { destruct (Nat.Even_Odd_dec (get L 0)) as [He|Ho].
          - rewrite (halve_volume L) by auto. lia.
          - rewrite (halve_volume_odd L) by (auto; intros He; apply (Nat.Even_Odd_False (get L 0)); auto). lia. }
        apply Nat.eqb_neq in Ev. rewrite vol_volume in Ev. lia.
      * destruct (Nat.Even_Odd_dec (get L 0)) as [?|Ho]; auto. exfalso.
        assert (Hne : ~ Nat.Even (get L 0)) by (intros E; apply (Nat.Even_Odd_False (get L 0)); auto).
        pose proof (ls_g_sc_bound CB3D (length L - 1) L (volume L - 1) Hn Ez) as B.
        rewrite Hlast in B. pose proof (halve_volume_odd L Hn Hne) as E.
        assert (0 < volume (tl L)).
        { apply volume_pos. intros i Hi. specialize (HL (S i)). destruct L; simpl in *; [lia|]. apply HL. lia. }
        lia.
    + (* CB32 *)
      cbn [divides_by_zero] in Ez. apply orb_false_iff in Ez. destruct Ez as [Ev Ez].
      apply has_zero_false in Ez.
      cbn [linearSiteIndex1 siteCoords1] in Hlast.
      pose proof (ls_cb32_sc_bound L (volume L - 1) Hn Ez) as B. rewrite Hlast in B.
      destruct (cb32_volume_le L Hn Ez) as [H1 H2].
      rewrite Nat.shiftr_div_pow2, vol_volume in B.
      set (P := 2 ^ (length L + 1)) in *.
      assert (HP : 0 < P) by (pose proof (Nat.pow_nonzero 2 (length L + 1)); lia).
      pose proof (Nat.div_mod (volume L) P ltac:(lia)) as D.
      assert (volume (cb32_nrow L) <= volume L / P) by (apply Nat.div_le_lower_bound; lia).
      destruct (Nat.eq_dec (P * volume (cb32_nrow L)) (volume L)) as [E|E]; auto.
      exfalso. nia.
  - intros H. rewrite create1_check_ok by auto.
    assert (divides_by_zero k L = false) as ->; [|reflexivity].
    destruct H as (_ & _ & Hk). destruct k; cbn [divides_by_zero].
    + apply has_zero_true; auto.
    + rewrite !shiftr1, vol_volume, (cb_vol (length L) L) by auto. fold (halve L).
      rewrite has_zero_true by (apply halve_positive; auto).
      pose proof (volume_pos _ (halve_positive L Hn Hk HL)). rewrite orb_false_r. apply Nat.eqb_neq. lia.
    + destruct Hk as [H2 Hk]. rewrite vol_volume, (cb_vol (length L) L) by auto. fold (halve L).
      rewrite has_zero_true by (apply halve_positive; auto).
      pose proof (volume_pos _ (halve_positive L Hn Hk HL)). rewrite orb_false_r. apply Nat.eqb_neq. lia.
    + rewrite cb32_vcb by auto. rewrite has_zero_true by (apply cb32_positive; auto).
      pose proof (volume_pos _ (cb32_positive L Hn Hk HL)). rewrite orb_false_r. apply Nat.eqb_neq. lia.
Qed.

(** The acceptance tests of the multi-node create, together with a QMP grid that divides
    the lattice it was given (nrow / min_dim), imply admissibility. *)
Lemma createP_adm k M L : par_kind k = true -> 0 < length L -> positive L ->
  (k = CB3D -> 2 <= length L) -> machine_ok M -> length (mgrid M) = length L ->
  createP_check k M L = true ->
  (forall i, i < length L ->
     Nat.divide (get (mgrid M) i) (get L i / get (min_dim k (length L)) i)) ->
  admP k M L.
Proof.
  intros Hp Hn HL H3 HM Hl Hc Hd. unfold admP. repeat (split; [assumption|]).
  intros i Hi. apply andb_true_iff in Hc. destruct Hc as [_ Hc]. rewrite forallb_forall in Hc.
  specialize (Hc i ltac:(apply in_seq; lia)). apply Nat.eqb_eq in Hc. destruct (Hd i Hi) as [q Hq].
  rewrite min_dim_extent in Hc, Hq by auto. set (m := min_extent k i) in *.
  assert (m <> 0) by (unfold m; destruct k, i; discriminate).
  apply Nat.mod_divide in Hc; [|auto]. destruct Hc as [r Hr]. exists q.
  rewrite Hr, Nat.div_mul in Hq by auto. subst r. lia.
Qed.

(** A concrete machine: lexicographic node numbering on any grid. *)
Definition lex_machine (G : list nat) : machine :=
  {| mgrid := G; node_of := fun c => local_site LEXICO c G; coord_of := fun q => crtesn LEXICO q G |}.
Lemma lex_machine_ok G : 0 < length G -> positive G -> machine_ok (lex_machine G).
Proof.
  intros Hn HG. split; [exact HG|]. cbn [lex_machine mgrid node_of coord_of]. split; intros.
  - split; [apply local_site_lt|apply crtesn_local_site]; auto.
  - split; [apply crtesn_in|apply local_site_crtesn]; auto.
Qed.

Lemma C01_all k L : 0 < length L -> positive L ->
  bijective_between (in_lattice L) (fun p => p < volume L)
    (fun c => local_site k c L) (fun p => crtesn k p L) /\
  forall c, in_lattice L c ->
    local_site k c L = match k with CB3D => lexnum_t L c | _ => lexnum L c end.
Proof.
  intros Hn HL. split; [split; intros; split|].
  - apply local_site_lt; auto.
  - apply crtesn_local_site; auto.
  - apply crtesn_in; auto.
  - apply local_site_crtesn; auto.
  - intros c Hc. pose proof (in_lattice_length _ _ Hc).
    destruct k; try (apply local_site_lexnum; auto; discriminate). apply local_site_lexnum_t; auto.
Qed.

Lemma C03_scalar k L i b : adm1 k L -> i < volume L ->
  let B := volume L / blocks k (length L) in
  (b * B <= i < (b + 1) * B <-> colour_of k (siteCoords1 k L i) = b).
Proof.
  intros H Hi B. destruct (scalar_bij k L H) as [_ B2]. destruct (B2 i Hi) as [Hc E].
  set (c := siteCoords1 k L i) in *. pose proof (in_lattice_length _ _ Hc) as Hl.
  assert (HB : 0 < B /\ i / B = colour_of k c).
  { unfold B. rewrite <- E. destruct H as (Hn & HL & Hk).
    destruct k; cbn [blocks colour_of].
    - rewrite Nat.div_1_r. pose proof (volume_pos L HL). split; [auto|].
      rewrite E. apply Nat.div_small; auto.
    - rewrite Hl. split; [|apply scalar_cb2_colour; repeat split; auto].
      rewrite (cb_vol (length L)) by auto. apply volume_pos, halve_positive; auto.
    - rewrite Hl. split; [|apply scalar_cb3d_colour; repeat split; auto; apply Hk].
      destruct Hk as [H2 Hk]. rewrite (cb_vol (length L)) by auto. apply volume_pos, halve_positive; auto.
    - split; [|apply scalar_cb32_colour; repeat split; auto; apply Hk].
      rewrite cb32_volume by auto. rewrite Nat.mul_comm, Nat.div_mul by (apply Nat.pow_nonzero; lia).
      apply volume_pos, cb32_positive; auto. }
  destruct HB as [HB1 HB2]. rewrite <- HB2. symmetry. apply cb_div_iff; auto.
Qed.

Lemma C03_par k M L q i b : admP k M L -> q < num_nodes M -> i < sites_on_node M L ->
  let B := sites_on_node M L / blocks k (length L) in
  (b * B <= i < (b + 1) * B <-> colour_of k (siteCoordsP k M L q i) = b).
Proof.
  intros H Hq Hi B. destruct (par_layout_ok k M L H) as (_ & _ & _ & B2).
  destruct (B2 (q, i) (conj Hq Hi)) as [Hc E]. cbn [par_layout l_size l_coord l_node l_lin fst snd] in *.
  injection E as _ E.
  set (c := siteCoordsP k M L q i) in *. pose proof (in_lattice_length _ _ Hc) as Hl.
  assert (HB : 0 < B /\ i / B = colour_of k c).
  { unfold B. rewrite <- E at 1. destruct k; try (destruct H; discriminate); cbn [blocks colour_of].
    - rewrite Nat.div_1_r. split; [lia|]. rewrite E. apply Nat.div_small; auto.
    - rewrite Hl. split; [|apply par_cb2_colour; auto].
      pose proof (parVpos CB2 M L H ltac:(apply (par_even CB2 M L H); discriminate)) as P.
      unfold sites_on_node. rewrite vol_volume.
      rewrite (parV CB2 M L H) by (apply (par_even CB2 M L H); discriminate). exact P.
    - rewrite Hl. split; [|apply par_cb3d_colour; auto].
      pose proof (parVpos CB3D M L H ltac:(apply (par_even CB3D M L H); discriminate)) as P.
      unfold sites_on_node. rewrite vol_volume.
      rewrite (parV CB3D M L H) by (apply (par_even CB3D M L H); discriminate). exact P. }
  destruct HB as [HB1 HB2]. rewrite <- HB2. symmetry. apply cb_div_iff; auto.
Qed.

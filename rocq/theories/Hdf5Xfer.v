(** Proofs about the model of HDF5 lattice datasets: transfers in blocks, writing and reading by all nodes. *)
From Coq Require Import List Arith NArith Bool Lia Permutation.
From Verif Require Import Base LayoutModel LayoutSpec LayoutProofs LayoutOk CrcModel IoProofs LatIoModel LatIoSpec
  LatIoProofs LatIoOk IoNodeProofs Hdf5Model Hdf5Spec Hdf5Proofs Hdf5Blocks.
Import ListNotations.
Local Open Scope nat_scope.

Lemma foldM_app {A S} (f : A -> S -> res S) l : forall l' s, foldM f (l ++ l') s = bind (foldM f l s) (foldM f l').
Proof. induction l as [|a l IH]; intros l' s; cbn; [easy|]. destruct (f a s); cbn; [apply IH|easy|easy]. Qed.

(** ** Writing blocks *)
Lemma block_writes D0 o0 orest d rest buf : forall n,
  in_space (d_dims D0) (o0 :: orest) (n * d :: rest) = true ->
  n * (h5size (d_ty D0) * (d * volume rest)) <= length buf ->
  exists D1, foldM (fun i D => h5_write D ((o0 + i * d) :: orest) (d :: rest)
                                 (skipn (i * (h5size (d_ty D0) * (d * volume rest))) buf)) (seq 0 n) D0 = Val D1 /\
    d_dims D1 = d_dims D0 /\ d_ty D1 = d_ty D0 /\
    forall i, d_val D1 i = if in_slab (o0 :: orest) (n * d :: rest) i
                           then Some (chunk (h5size (d_ty D0) * row_num (n * d :: rest) (rel (o0 :: orest) i)) (h5size (d_ty D0)) buf)
                           else d_val D0 i.
Proof.
  set (es := h5size (d_ty D0)). set (T := es * (d * volume rest)).
  induction n as [|n IH]; intros HS HB.
  - exists D0. cbn [seq foldM]. split; [easy|]. split; [easy|]. split; [easy|]. intros i.
    destruct i as [|x i]; cbn [in_slab]; [easy|]. rewrite Nat.mul_0_l, Nat.add_0_r.
    destruct (Nat.leb_spec o0 x); [|easy]. destruct (Nat.ltb_spec x o0); [lia|easy].
  - assert (HL := in_space_length _ _ _ HS). cbn [length] in HL.
    destruct IH as (D1 & E & Hd & Ht & Hv).
    { destruct (d_dims D0) as [|x dims]; [easy|]. cbn [in_space] in *. apply andb_true_iff in HS. destruct HS as [H1 H2].
      rewrite H2, andb_true_r. apply Nat.leb_le in H1. apply Nat.leb_le. nia. }
    { nia. }
    rewrite seq_S, foldM_app, E. cbn [foldM bind Nat.add]. unfold h5_write at 1. rewrite Ht, Hd. fold es.
    cbn [length]. replace (S (length orest) =? length (d_dims D0)) with true by (symmetry; apply Nat.eqb_eq; lia).
    cbn [negb].
    replace (in_space (d_dims D0) (o0 + n * d :: orest) (d :: rest)) with true.
    2:{ symmetry. destruct (d_dims D0) as [|x dims]; [easy|]. cbn [in_space] in *. apply andb_true_iff in HS. destruct HS as [H1 H2].
        rewrite H2, andb_true_r. apply Nat.leb_le in H1. apply Nat.leb_le. nia. }
    cbn [negb volume]. rewrite skipn_length. fold T.
    replace (length buf - n * T <? T) with false by (symmetry; apply Nat.ltb_ge; nia).
    cbn [bind]. eexists. split; [reflexivity|]. cbn [d_dims d_ty d_val]. split; [easy|]. split; [easy|].
    intros i. rewrite Hv. destruct i as [|x i]; [easy|]. cbn [in_slab rel row_num]. rewrite chunk_skip.
    destruct (in_slab orest rest i) eqn:ES; [|now rewrite !andb_false_r]. rewrite !andb_true_r.
    destruct (Nat.leb_spec (o0 + n * d) x) as [H1|H1]; cbn [andb].
    + replace (o0 <=? x) with true by (symmetry; apply Nat.leb_le; nia). cbn [andb].
      destruct (Nat.ltb_spec x (o0 + n * d + d)) as [H2|H2].
      * replace (x <? o0 + S n * d) with true by (symmetry; apply Nat.ltb_lt; lia). do 2 f_equal.
        unfold T. replace (x - o0) with (n * d + (x - (o0 + n * d))) by lia. ring.
      * replace (x <? o0 + S n * d) with false by (symmetry; apply Nat.ltb_ge; lia).
        replace (x <? o0 + n * d) with false by (symmetry; apply Nat.ltb_ge; lia). easy.
    + destruct (Nat.leb_spec o0 x) as [H2|H2]; cbn [andb]; [|easy].
      replace (x <? o0 + n * d) with true by (symmetry; apply Nat.ltb_lt; lia).
      replace (x <? o0 + S n * d) with true by (symmetry; apply Nat.ltb_lt; nia). easy.
Qed.

(** ** The part of a node *)
Lemma tail_facts obj : 0 < obj -> volume (tail obj) = obj /\ length (tail0 obj) = length (tail obj) /\
  forall j, in_lattice (tail obj) j -> shift (tail0 obj) j = j /\ length j = length (tail obj).
Proof.
  intros H. unfold tail, tail0. destruct (Nat.ltb_spec 1 obj) as [H1|H1].
  - split; [cbn; lia|]. split; [easy|]. intros j Hj. inversion Hj as [|x ? ? ? Hx Hl]; subst. inversion Hl; subst. easy.
  - split; [cbn; lia|]. split; [easy|]. intros j Hj. inversion Hj; subst. easy.
Qed.

Lemma in_lattice_app L L' c c' : in_lattice L c -> in_lattice L' c' -> in_lattice (L ++ L') (c ++ c').
Proof. apply Forall2_app. Qed.
Lemma in_lattice_rev L c : in_lattice L c -> in_lattice (rev L) (rev c).
Proof. induction 1; cbn; [constructor|]. apply in_lattice_app; [easy|]. repeat constructor. easy. Qed.
Lemma in_lattice_rev' L c : in_lattice (rev L) (rev c) -> in_lattice L c.
Proof. intros H. apply in_lattice_rev in H. now rewrite !rev_involutive in H. Qed.
Lemma in_lattice_app_inv L L' i : in_lattice (L ++ L') i -> exists c c', i = c ++ c' /\ in_lattice L c /\ in_lattice L' c'.
Proof. intros H. apply Forall2_app_inv_r in H. destruct H as (c & c' & H1 & H2 & ->). now exists c, c'. Qed.

Lemma order_length inv c : length (order inv c) = length c.
Proof. destruct inv; [apply rev_length|easy]. Qed.
Lemma order_in inv L c : in_lattice L c -> in_lattice (order inv L) (order inv c).
Proof. destruct inv; [apply in_lattice_rev|easy]. Qed.
Lemma order_in' inv L i : in_lattice (order inv L) i -> exists c, i = order inv c /\ in_lattice L c.
Proof.
  destruct inv; cbn; [|intros H; now exists i]. intros H. exists (rev i). rewrite rev_involutive. split; [easy|].
  apply in_lattice_rev'. now rewrite rev_involutive.
Qed.
Lemma order_shift inv o l : length o = length l -> shift (order inv o) (order inv l) = order inv (shift o l).
Proof. destruct inv; [apply shift_rev|easy]. Qed.
Lemma order_inj inv c c' : order inv c = order inv c' -> c = c'.
Proof. destruct inv; cbn; [|easy]. intros H. rewrite <- (rev_involutive c), H. apply rev_involutive. Qed.
Lemma volume_rev L : volume (rev L) = volume L.
Proof. induction L; cbn; [easy|]. rewrite volume_app, IHL. cbn. lia. Qed.
Lemma order_volume inv L : volume (order inv L) = volume L.
Proof. destruct inv; [apply volume_rev|easy]. Qed.

(** The index in the dataset of element [j] of the local site [l] of node [q]. *)
Definition place_of (b : build) (inv : bool) (q : nat) (l j : list nat) : list nat := order inv (shift (origin b q) l) ++ j.

Lemma node_box b inv obj q : build_ok b -> 0 < obj -> q < l_nodes (lay_of b) ->
  length (node_offset b inv obj q) = length (node_dims b inv obj) /\
  length (node_offset b inv obj q) = length (order inv (build_size b) ++ tail obj) /\
  in_space (order inv (build_size b) ++ tail obj) (node_offset b inv obj q) (node_dims b inv obj) = true /\
  (forall l j, in_lattice (sub_size b) l -> in_lattice (tail obj) j ->
     shift (node_offset b inv obj q) (order inv l ++ j) = place_of b inv q l j) /\
  (forall i, in_slab (node_offset b inv obj q) (node_dims b inv obj) i = true <->
     exists l j, in_lattice (sub_size b) l /\ in_lattice (tail obj) j /\ i = place_of b inv q l j).
Proof.
  intros Hb Ho Hq. destruct (node_sites b q Hb Hq) as (HS & HO & HP & E).
  destruct (tail_facts obj Ho) as (_ & HT & HJ).
  assert (HLen : length (node_offset b inv obj q) = length (node_dims b inv obj)).
  { unfold node_offset, node_dims. fold (origin b q). rewrite !app_length, !order_length. lia. }
  assert (HLen2 : length (node_offset b inv obj q) = length (order inv (build_size b) ++ tail obj)).
  { unfold node_offset. fold (origin b q). rewrite !app_length, !order_length. lia. }
  assert (HSh : forall l j, in_lattice (sub_size b) l -> in_lattice (tail obj) j ->
     shift (node_offset b inv obj q) (order inv l ++ j) = place_of b inv q l j).
  { intros l j Hl Hj. unfold node_offset, place_of. fold (origin b q). apply in_lattice_length in Hl.
    rewrite shift_app by (rewrite !order_length; lia). rewrite order_shift by lia. f_equal. now apply HJ. }
  split; [easy|]. split; [easy|]. split; [|split; [easy|]].
  - (* the last site of the node lies in the lattice *)
    assert (G : forall dims off cnt, length off = length dims -> length cnt = length dims ->
       (forall l, in_lattice cnt l -> in_lattice dims (shift off l)) -> (forall i, i < length cnt -> 0 < get cnt i) ->
       in_space dims off cnt = true).
    { clear. induction dims as [|d dims IH]; intros [|o off] [|c cnt] H1 H2 H3 H4; cbn in H1, H2; try lia; [easy|].
      cbn [in_space]. apply andb_true_iff.
      assert (Hc : 0 < c) by (apply (H4 0); cbn; lia).
      assert (HZ : in_lattice cnt (repeat 0 (length cnt))).
      { clear -H4. assert (H : forall i, i < length cnt -> 0 < get cnt i) by (intros i Hi; apply (H4 (Datatypes.S i)); cbn; lia).
        clear H4. induction cnt as [|x cnt IHc]; cbn; constructor; [apply (H 0); cbn; lia|]. apply IHc. intros i Hi. apply (H (Datatypes.S i)). cbn; lia. }
      split.
      - assert (K := H3 ((c - 1) :: repeat 0 (length cnt)) ltac:(constructor; [lia|exact HZ])). cbn in K.
        inversion K; subst. apply Nat.leb_le. lia.
      - apply IH; try lia.
        + intros l Hl. assert (K := H3 (0 :: l) ltac:(constructor; [lia|exact Hl])). cbn in K. now inversion K; subst.
        + intros i Hi. apply (H4 (Datatypes.S i)). cbn; lia. }
    apply G; [easy|lia| |].
    + intros i Hi. unfold node_dims in Hi. apply in_lattice_app_inv in Hi. destruct Hi as (c & j & -> & Hc & Hj).
      apply order_in' in Hc. destruct Hc as (l & -> & Hl). rewrite HSh by easy. unfold place_of.
      apply in_lattice_app; [|easy]. apply order_in. now apply site_of.
    + assert (K : positive (node_dims b inv obj)).
      { apply volume_pos_inv. unfold node_dims. rewrite volume_app, order_volume.
        destruct (tail_facts obj Ho) as (-> & _ & _). assert (0 < volume (sub_size b)) by now apply volume_pos. nia. }
      exact K.
  - intros i. rewrite in_slab_iff by easy. split.
    + intros (x & Hx & ->). unfold node_dims in Hx. apply in_lattice_app_inv in Hx. destruct Hx as (c & j & -> & Hc & Hj).
      apply order_in' in Hc. destruct Hc as (l & -> & Hl). exists l, j. split; [easy|]. split; [easy|]. now apply HSh.
    + intros (l & j & Hl & Hj & ->). exists (order inv l ++ j). rewrite HSh by easy. split; [|easy].
      apply in_lattice_app; [|easy]. now apply order_in.
Qed.

Lemma place_of_inj b inv q l j q' l' j' : build_ok b -> q < l_nodes (lay_of b) -> q' < l_nodes (lay_of b) ->
  in_lattice (sub_size b) l -> in_lattice (sub_size b) l' ->
  place_of b inv q l j = place_of b inv q' l' j' -> q = q' /\ shift (origin b q) l = shift (origin b q') l' /\ j = j'.
Proof.
  intros Hb Hq Hq' Hl Hl' E. destruct (site_of b q l Hb Hq Hl) as (_ & HN & HL). destruct (site_of b q' l' Hb Hq' Hl') as (_ & HN' & HL').
  unfold place_of in E.
  assert (E1 : order inv (shift (origin b q) l) = order inv (shift (origin b q') l') /\ j = j').
  { apply (f_equal (fun x => (firstn (length (build_size b)) x, skipn (length (build_size b)) x))) in E.
    rewrite !firstn_app_l, !skipn_app_l in E by (rewrite order_length; lia). injection E as E1 E2. easy. }
  destruct E1 as [E1 ->]. apply order_inj in E1. split; [congruence|]. easy.
Qed.

(** Number of an element within the part of a node. *)
Lemma row_num_app a : forall d i j, length i = length a -> row_num (a ++ d) (i ++ j) = row_num a i * volume d + row_num d j.
Proof.
  induction a as [|n a IH]; intros d [|x i] j H; cbn in *; try lia. rewrite IH by lia. rewrite volume_app. ring.
Qed.

(** ** Writing by all nodes *)
Lemma dims_cons b inv obj q : build_ok b -> q < l_nodes (lay_of b) -> exists d0 rest, node_dims b inv obj = d0 :: rest /\
  d0 = (if inv then last (sub_size b) 0 else get (sub_size b) 0).
Proof.
  intros Hb Hq. destruct (size_ok b Hb) as [H0 _].
  assert (HS : 0 < length (sub_size b)) by (destruct (node_sites b q Hb Hq) as (-> & _); exact H0).
  unfold node_dims. destruct inv; cbn [order].
  - destruct (exists_last (l := sub_size b)) as (l' & x & E); [intros E; rewrite E in HS; cbn in HS; lia|].
    rewrite E, rev_app_distr, last_last. cbn. eauto.
  - destruct (sub_size b) as [|x l]; [cbn in HS; lia|]. cbn. eauto.
Qed.

Lemma write_node_ok real b obj q buf D k ty : build_ok b -> 0 < obj -> q < l_nodes (lay_of b) ->
  halvings real (h5size ty * obj * volume (sub_size b)) k -> Nat.divide (2 ^ k) (last (sub_size b) 0) ->
  length buf = h5size ty * obj * volume (sub_size b) ->
  d_dims D = rev (build_size b) ++ tail obj -> d_ty D = ty ->
  exists D1, write_node real b obj q buf D = Val D1 /\ d_dims D1 = d_dims D /\ d_ty D1 = ty /\
    forall i, d_val D1 i = if in_slab (node_offset b true obj q) (node_dims b true obj) i
      then Some (chunk (h5size ty * row_num (node_dims b true obj) (rel (node_offset b true obj q) i)) (h5size ty) buf)
      else d_val D i.
Proof.
  intros Hb Ho Hq HK HD HB Hdims Hty. destruct (node_box b true obj q Hb Ho Hq) as (HL & HL2 & HS & _ & _).
  destruct (dims_cons b true obj q Hb Hq) as (d0 & rest & Ed & Ed0). cbn [order] in HS, HL2.
  assert (HV : volume (node_dims b true obj) = obj * volume (sub_size b)).
  { unfold node_dims. rewrite volume_app, order_volume. destruct (tail_facts obj Ho) as (-> & _). lia. }
  unfold write_node. rewrite Hty, vol_volume, (split_ok _ _ _ k HK).
  destruct (node_offset b true obj q) as [|o0 orest] eqn:Eo; [rewrite Ed in HL; discriminate|].
  rewrite Ed in *. cbn [get nth tl]. cbn [get nth]. rewrite <- Ed0 in HD.
  destruct HD as [z Hz].
  assert (HP : 2 ^ k <> 0) by (apply Nat.pow_nonzero; lia).
  replace (h5size ty * obj * volume (sub_size b) / 2 ^ k) with (h5size (d_ty D) * (z * volume rest)).
  2:{ rewrite Hty, <- Nat.mul_assoc, <- HV. cbn [volume]. rewrite Hz.
      replace (h5size ty * (z * 2 ^ k * volume rest)) with (h5size ty * (z * volume rest) * 2 ^ k) by ring. now rewrite Nat.div_mul. }
  replace (d0 / 2 ^ k) with z by (rewrite Hz; now rewrite Nat.div_mul).
  destruct (block_writes D o0 orest z rest buf (2 ^ k)) as (D1 & E & H1 & H2 & H3).
  - rewrite Hdims. replace (2 ^ k * z) with d0 by lia. exact HS.
  - rewrite HB, Hty. cbn [volume] in HV. rewrite <- Nat.mul_assoc, <- HV, Hz. apply Nat.eq_le_incl. ring.
  - exists D1. split; [exact E|]. split; [easy|]. split; [congruence|]. intros i. rewrite H3, Hty.
    now replace (2 ^ k * z) with d0 by lia.
Qed.

(** The bytes of the elements of a site. *)
Definition site_data (D : dset) (inv : bool) (obj : nat) (c : list nat) : list N :=
  concat (map (fun j => h5_elem D (order inv c ++ j)) (row_major (tail obj))).

Lemma row_num_nth L run l : nth_error (all_sites L) run = Some l -> row_num (rev L) (rev l) = run.
Proof.
  intros H. assert (E := row_num_all (rev L)). rewrite row_major_rev, map_map in E.
  assert (K : nth_error (map (fun x => row_num (rev L) (rev x)) (all_sites L)) run = Some (row_num (rev L) (rev l)))
    by (rewrite nth_error_map, H; reflexivity).
  rewrite E in K. assert (HK : run < length (seq 0 (volume (rev L)))) by (apply nth_error_Some; congruence).
  rewrite seq_length in HK. rewrite (nth_error_nth' _ 0) in K by (now rewrite seq_length). rewrite seq_nth in K by easy.
  injection K as K. lia.
Qed.

Lemma write_nodes_ok real b ty obj bufs k : build_ok b -> 0 < obj ->
  halvings real (h5size ty * obj * volume (sub_size b)) k -> Nat.divide (2 ^ k) (last (sub_size b) 0) ->
  (forall q, q < l_nodes (lay_of b) -> length (bufs q) = h5size ty * obj * volume (sub_size b)) ->
  exists D, write_nodes real b ty obj bufs = Val D /\ d_dims D = rev (build_size b) ++ tail obj /\ d_ty D = ty /\
    forall q run l j, q < l_nodes (lay_of b) -> nth_error (all_sites (sub_size b)) run = Some l -> in_lattice (tail obj) j ->
      d_val D (rev (shift (origin b q) l) ++ j) = Some (chunk (h5size ty * (run * obj + row_num (tail obj) j)) (h5size ty) (bufs q)).
Proof.
  intros Hb Ho HK HD HB. unfold write_nodes.
  assert (G : forall n, n <= l_nodes (lay_of b) ->
    exists D, foldM (fun q => write_node real b obj q (bufs q)) (seq 0 n)
        (mkD (rev (l_size (lay_of b)) ++ tail obj) ty (fun _ => None)) = Val D /\
      d_dims D = rev (build_size b) ++ tail obj /\ d_ty D = ty /\
      forall q run l j, q < n -> nth_error (all_sites (sub_size b)) run = Some l -> in_lattice (tail obj) j ->
      d_val D (rev (shift (origin b q) l) ++ j) = Some (chunk (h5size ty * (run * obj + row_num (tail obj) j)) (h5size ty) (bufs q))).
  { induction n as [|n IH]; intros Hn.
    - eexists. split; [reflexivity|]. cbn [d_dims d_ty]. split; [easy|]. split; [easy|]. intros; lia.
    - destruct IH as (D & E & Hd & Ht & Hv); [lia|]. rewrite seq_S, foldM_app, E. cbn [bind foldM Nat.add].
      destruct (write_node_ok real b obj n (bufs n) D k ty) as (D1 & E1 & Hd1 & Ht1 & Hv1); try easy.
      { apply HB; lia. }
      rewrite E1. cbn [bind]. exists D1. split; [easy|]. split; [congruence|]. split; [easy|].
      destruct (node_box b true obj n Hb Ho ltac:(lia)) as (HL & _ & _ & HSh & HSl).
      intros q run l j Hq Hl Hj. rewrite Hv1.
      assert (Hl' : in_lattice (sub_size b) l) by (apply all_sites_in, (nth_error_In _ _ Hl)).
      destruct (Nat.eq_dec q n) as [->|Hne].
      + replace (in_slab _ _ _) with true.
        2:{ symmetry. apply HSl. now exists l, j. }
        change (rev (shift (origin b n) l) ++ j) with (place_of b true n l j). rewrite <- HSh by easy.
        rewrite rel_shift.
        2:{ rewrite HL. unfold node_dims. rewrite !app_length, !order_length. apply in_lattice_length in Hl', Hj. lia. }
        unfold node_dims. cbn [order]. rewrite row_num_app by (rewrite !rev_length; now apply in_lattice_length).
        rewrite (row_num_nth _ _ _ Hl). destruct (tail_facts obj Ho) as (-> & _). reflexivity.
      + replace (in_slab _ _ _) with false; [apply Hv; easy || lia|].
        symmetry. apply not_true_iff_false. intros K. apply HSl in K. destruct K as (l' & j' & Hl2 & Hj2 & Eq).
        apply Hne. destruct (place_of_inj b true q l j n l' j') as [-> _]; try easy; try lia. }
  apply (G _ (le_n _)).
Qed.

Lemma written_site D ty obj b q run l (buf : list N) : 0 < obj -> d_ty D = ty ->
  (forall j, in_lattice (tail obj) j ->
     d_val D (rev (shift (origin b q) l) ++ j) = Some (chunk (h5size ty * (run * obj + row_num (tail obj) j)) (h5size ty) buf)) ->
  site_data D true obj (shift (origin b q) l) = chunk (run * (h5size ty * obj)) (h5size ty * obj) buf.
Proof.
  intros Ho Ht H. unfold site_data. cbn [order].
  rewrite map_ext_in with (g := fun j => chunk (run * (h5size ty * obj) + row_num (tail obj) j * h5size ty) (h5size ty) buf).
  2:{ intros j Hj. apply row_major_in in Hj. unfold h5_elem. rewrite H by easy. f_equal. ring. }
  rewrite <- (map_map (row_num (tail obj)) (fun x => chunk (run * (h5size ty * obj) + x * h5size ty) (h5size ty) buf)).
  rewrite row_num_all. destruct (tail_facts obj Ho) as (-> & _). rewrite concat_chunks. f_equal. ring.
Qed.

(** ** Reading blocks *)
Lemma block_reads D o0 orest d rest : forall n,
  in_space (d_dims D) (o0 :: orest) (n * d :: rest) = true ->
  (forall i, in_lattice (n * d :: rest) i -> length (h5_elem D (shift (o0 :: orest) i)) = h5size (d_ty D)) ->
  exists bufs, mapM (fun i => h5_read D ((o0 + i * d) :: orest) (d :: rest) (h5size (d_ty D) * (d * volume rest))) (seq 0 n) = Val bufs /\
    concat bufs = map Some (concat (map (fun i => h5_elem D (shift (o0 :: orest) i)) (row_major (n * d :: rest)))).
Proof.
  intros n HS HE. assert (HL := in_space_length _ _ _ HS). cbn [length] in HL.
  set (es := h5size (d_ty D)) in *.
  set (blk := fun i => map Some (concat (map (fun c => h5_elem D (shift ((o0 + i * d) :: orest) c)) (row_major (d :: rest))))).
  assert (EQ : forall i c, shift ((o0 + i * d) :: orest) c = match c with x :: r => shift (o0 :: orest) ((i * d + x) :: r) | [] => [] end).
  { intros i [|x r]; cbn [shift]; [easy|]. f_equal. lia. }
  exists (map blk (seq 0 n)). split.
  - apply mapM_val. intros i Hi. apply in_seq in Hi. unfold h5_read. cbn [length].
    replace (S (length orest) =? length (d_dims D)) with true by (symmetry; apply Nat.eqb_eq; lia). cbn [negb].
    replace (in_space (d_dims D) (o0 + i * d :: orest) (d :: rest)) with true.
    2:{ symmetry. destruct (d_dims D) as [|x dims]; [easy|]. cbn [in_space] in *. apply andb_true_iff in HS. destruct HS as [H1 H2].
        rewrite H2, andb_true_r. apply Nat.leb_le in H1. apply Nat.leb_le. nia. }
    cbn [negb].
    assert (HLen : length (concat (map (fun c => h5_elem D (shift ((o0 + i * d) :: orest) c)) (row_major (d :: rest)))) = es * (d * volume rest)).
    { rewrite (concat_length_eq es).
      - rewrite map_length, row_major_length. reflexivity.
      - intros l Hl. apply in_map_iff in Hl. destruct Hl as (c & <- & Hc). apply row_major_in in Hc. rewrite EQ.
        inversion Hc as [|x m r rest' Hx Hr]; subst. apply HE. constructor; [nia|easy]. }
    rewrite HLen, Nat.ltb_irrefl, Nat.sub_diag. cbn [repeat]. rewrite app_nil_r. reflexivity.
  - clear HS HE HL. unfold blk. rewrite <- (map_map (fun i => concat (map (fun c => h5_elem D (shift ((o0 + i * d) :: orest) c)) (row_major (d :: rest)))) (map Some)).
    rewrite <- concat_map. f_equal. induction n as [|n IH]; [easy|].
    rewrite seq_S, map_app, concat_app, IH. cbn [map concat Nat.add]. rewrite app_nil_r.
    replace (S n * d) with (n * d + d) by lia. cbn [row_major]. rewrite seq_app, flat_map_app_l, map_app, concat_app. f_equal.
    cbn [Nat.add]. f_equal. rewrite !map_flat_map. rewrite <- (Nat.add_0_r (n * d)), <- seq_add_map, flat_map_map_l.
    apply flat_map_ext. intros x. rewrite !map_map. apply map_ext. intros c. rewrite ?Nat.add_0_r, EQ. cbn iota. now rewrite (Nat.add_comm x).
Qed.

Lemma concat_flat {A B} (f : A -> list (list B)) l : concat (flat_map f l) = concat (map (fun x => concat (f x)) l).
Proof. induction l; cbn; [easy|]. now rewrite concat_app, IHl. Qed.

(** Every element of the dataset that a node reads has the size of its type. *)
Definition sized (D : dset) (inv : bool) (b : build) (obj : nat) : Prop :=
  forall c j, in_lattice (build_size b) c -> in_lattice (tail obj) j -> length (h5_elem D (order inv c ++ j)) = h5size (d_ty D).

(** What the blocks contain: the elements in the order of the file. *)
Definition file_sites (inv : bool) (S : list nat) : list (list nat) :=
  if inv then all_sites S else row_major S.

Lemma read_blocks b inv hs m obj q D k : build_ok b -> 0 < obj -> q < l_nodes (lay_of b) ->
  d_dims D = order inv (build_size b) ++ tail obj -> h5size (d_ty D) = m * hs -> sized D inv b obj ->
  halvings hs (m * obj * volume (sub_size b)) k ->
  Nat.divide (2 ^ k) (if inv then last (sub_size b) 0 else get (sub_size b) 0) ->
  let dims := node_dims b inv obj in
  let off := node_offset b inv obj q in
  let '(total, d0, blocks) := split_of hs (m * obj * volume (sub_size b)) (get dims 0) in
  exists bufs, mapM (fun i => h5_read D ((get off 0 + i * d0) :: tl off) (d0 :: tl dims) (total * hs)) (seq 0 blocks) = Val bufs /\
    concat bufs = map Some (concat (map (fun l => site_data D inv obj (shift (origin b q) l)) (file_sites inv (sub_size b)))) /\
    m * obj * volume (sub_size b) * hs - blocks * (total * hs) = 0.
Proof.
  intros Hb Ho Hq Hdims Hes HZ HK HD. destruct (node_box b inv obj q Hb Ho Hq) as (HL & HL2 & HS & HSh & _).
  destruct (dims_cons b inv obj q Hb Hq) as (d0 & rest & Ed & Ed0).
  assert (HV : volume (node_dims b inv obj) = obj * volume (sub_size b)).
  { unfold node_dims. rewrite volume_app, order_volume. destruct (tail_facts obj Ho) as (-> & _). lia. }
  cbn zeta. rewrite (split_ok _ _ _ k HK).
  destruct (node_offset b inv obj q) as [|o0 orest] eqn:Eo; [rewrite Ed in HL; discriminate|].
  rewrite <- Ed0 in HD. destruct HD as [z Hz].
  assert (HP : 2 ^ k <> 0) by (apply Nat.pow_nonzero; lia).
  assert (HM : forall i, in_lattice (node_dims b inv obj) i -> exists l j, in_lattice (sub_size b) l /\ in_lattice (tail obj) j /\
     i = order inv l ++ j).
  { intros i Hi. unfold node_dims in Hi. apply in_lattice_app_inv in Hi. destruct Hi as (c & j & -> & Hc & Hj).
    apply order_in' in Hc. destruct Hc as (l & -> & Hl). now exists l, j. }
  rewrite Ed in *. cbn [get nth tl].
  replace (d0 / 2 ^ k) with z by (rewrite Hz; now rewrite Nat.div_mul).
  assert (ET : m * obj * volume (sub_size b) / 2 ^ k = m * (z * volume rest)).
  { rewrite <- Nat.mul_assoc, <- HV. cbn [volume]. rewrite Hz.
    replace (m * (z * 2 ^ k * volume rest)) with (m * (z * volume rest) * 2 ^ k) by ring. now rewrite Nat.div_mul. }
  rewrite ET. replace (m * (z * volume rest) * hs) with (h5size (d_ty D) * (z * volume rest)) by (rewrite Hes; ring).
  destruct (block_reads D o0 orest z rest (2 ^ k)) as (bufs & E1 & E2).
  - replace (2 ^ k * z) with d0 by lia. now rewrite Hdims.
  - replace (2 ^ k * z) with d0 by lia. intros i Hi. destruct (HM i Hi) as (l & j & Hl & Hj & ->).
    rewrite HSh by easy. unfold place_of. apply HZ; [now apply site_of|easy].
  - exists bufs. split; [exact E1|]. split.
    + rewrite E2. replace (2 ^ k * z) with d0 by lia. f_equal. rewrite <- Ed.
      transitivity (concat (map (fun l => concat (map (fun j => h5_elem D (shift (o0 :: orest) (l ++ j))) (row_major (tail obj)))) (row_major (order inv (sub_size b))))).
      { unfold node_dims. rewrite row_major_app, map_flat_map, concat_flat. f_equal. apply map_ext. intros l. now rewrite map_map. }
      f_equal. unfold file_sites, site_data.
      assert (EJ : forall l, in_lattice (sub_size b) l ->
         map (fun j => h5_elem D (shift (o0 :: orest) (order inv l ++ j))) (row_major (tail obj))
         = map (fun j => h5_elem D (order inv (shift (origin b q) l) ++ j)) (row_major (tail obj))).
      { intros l Hl. apply map_ext_in. intros j Hj. apply row_major_in in Hj. now rewrite HSh. }
      destruct inv; cbn [order] in *.
      * rewrite row_major_rev, map_map. apply map_ext_in. intros l Hl. apply all_sites_in in Hl. f_equal. now apply EJ.
      * apply map_ext_in. intros l Hl. apply row_major_in in Hl. f_equal. now apply EJ.
    + rewrite Hes. rewrite <- Nat.mul_assoc with (n := m), <- HV. cbn [volume]. rewrite Hz.
      replace (2 ^ k * (m * hs * (z * volume rest))) with (m * (z * 2 ^ k * volume rest) * hs) by ring. lia.
Qed.

(** Proofs about the model of HDF5 lattice datasets: transfers that go wrong. *)
From Coq Require Import List Arith NArith Bool Lia.
From Verif Require Import Base LayoutModel LayoutSpec LayoutProofs LayoutOk CrcModel SwapProofs IoProofs LatIoModel LatIoSpec
  LatIoProofs LatIoOk IoNodeProofs Hdf5Model Hdf5Spec Hdf5Proofs Hdf5Blocks Hdf5Xfer Hdf5Read Hdf5Ok.
Import ListNotations.
Local Open Scope nat_scope.

(** ** Extents that cannot be cut *)
Lemma block_frame D0 o0 orest d rest T buf : forall n,
  in_space (d_dims D0) (o0 :: orest) (n * d :: rest) = true ->
  h5size (d_ty D0) * (d * volume rest) <= T -> n * T <= length buf ->
  exists D1, foldM (fun i D => h5_write D ((o0 + i * d) :: orest) (d :: rest) (skipn (i * T) buf)) (seq 0 n) D0 = Val D1 /\
    d_dims D1 = d_dims D0 /\ d_ty D1 = d_ty D0 /\
    forall i, in_slab (o0 :: orest) (n * d :: rest) i = false -> d_val D1 i = d_val D0 i.
Proof.
  induction n as [|n IH]; intros HS HT HB.
  - exists D0. easy.
  - assert (HL := in_space_length _ _ _ HS). cbn [length] in HL.
    destruct IH as (D1 & E & Hd & Ht & Hv).
    { destruct (d_dims D0) as [|x dims]; [easy|]. cbn [in_space] in *. apply andb_true_iff in HS. destruct HS as [H1 H2].
      rewrite H2, andb_true_r. apply Nat.leb_le in H1. apply Nat.leb_le. nia. }
    { easy. }
    { nia. }
    rewrite seq_S, foldM_app, E. cbn [foldM bind Nat.add]. unfold h5_write at 1. rewrite Ht, Hd.
    cbn [length]. replace (S (length orest) =? length (d_dims D0)) with true by (symmetry; apply Nat.eqb_eq; lia).
    cbn [negb].
    replace (in_space (d_dims D0) (o0 + n * d :: orest) (d :: rest)) with true.
    2:{ symmetry. destruct (d_dims D0) as [|x dims]; [easy|]. cbn [in_space] in *. apply andb_true_iff in HS. destruct HS as [H1 H2].
        rewrite H2, andb_true_r. apply Nat.leb_le in H1. apply Nat.leb_le. nia. }
    cbn [negb volume]. rewrite skipn_length.
    replace (length buf - n * T <? _) with false by (symmetry; apply Nat.ltb_ge; nia).
    cbn [bind]. eexists. split; [reflexivity|]. cbn [d_dims d_ty d_val]. split; [easy|]. split; [easy|].
    intros i Hi. destruct i as [|x i]; [now apply Hv|]. cbn [in_slab] in Hi |- *.
    replace ((o0 + n * d <=? x) && (x <? o0 + n * d + d) && in_slab orest rest i) with false.
    2:{ symmetry. destruct (in_slab orest rest i); [|now rewrite andb_false_r]. rewrite andb_true_r in *.
        apply andb_false_iff in Hi. apply andb_false_iff. rewrite !Nat.leb_gt, !Nat.ltb_ge in *. destruct Hi; [left|right]; nia. }
    apply Hv. cbn [in_slab]. destruct (in_slab orest rest i); [|now rewrite andb_false_r]. rewrite andb_true_r in *.
    apply andb_false_iff in Hi. apply andb_false_iff. rewrite !Nat.leb_gt, !Nat.ltb_ge in *. destruct Hi; [left|right]; nia.
Qed.

Lemma last_shift o : forall l, length o = length l -> l <> [] -> last (shift o l) 0 = last o 0 + last l 0.
Proof.
  induction o as [|a o IH]; intros [|x l] H Hn; cbn in H; try lia; [easy|].
  destruct l as [|y l], o as [|b o]; cbn in H; try lia; [easy|].
  cbn [shift]. change (last (a + x :: b + y :: shift o l) 0) with (last (shift (b :: o) (y :: l)) 0).
  rewrite IH by (cbn; easy || lia). easy.
Qed.

Lemma origin_last b q : build_ok b -> q < l_nodes (lay_of b) -> exists z, last (origin b q) 0 = z * last (sub_size b) 0.
Proof.
  intros Hb Hq. destruct (node_sites b q Hb Hq) as (HS & HO & HP & _). destruct (size_ok b Hb) as [H0 _].
  exists (get (node_coord b q) (length (build_size b) - 1)).
  rewrite <- (get_last (origin b q)), <- (get_last (sub_size b)) by lia. rewrite HS, HO.
  assert (HN : length (node_coord b q) = length (build_size b)).
  { unfold origin, vmul in HO. now rewrite length_map_seq in HO. }
  unfold origin, vmul. rewrite get_map_seq by lia. easy.
Qed.

Lemma lost_rows real b ty obj bufs k : build_ok b -> 0 < obj ->
  halvings real (h5size ty * obj * volume (sub_size b)) k -> ~ Nat.divide (2 ^ k) (last (sub_size b) 0) ->
  (forall q, q < l_nodes (lay_of b) -> length (bufs q) = h5size ty * obj * volume (sub_size b)) ->
  exists D, write_nodes real b ty obj bufs = Val D /\
    forall c j, in_lattice (build_size b) c -> in_lattice (tail obj) j ->
      last c 0 mod last (sub_size b) 0 = last (sub_size b) 0 - 1 -> d_val D (rev c ++ j) = None.
Proof.
  intros Hb Ho HK HND HB. unfold write_nodes. destruct (size_ok b Hb) as [HL0 _].
  assert (HP : 2 ^ k <> 0) by (apply Nat.pow_nonzero; lia).
  set (d0 := last (sub_size b) 0) in *.
  assert (Hd0 : 2 ^ k * (d0 / 2 ^ k) < d0).
  { assert (K := Nat.div_mod d0 (2 ^ k) HP). destruct (Nat.eq_dec (d0 mod 2 ^ k) 0) as [Ez|Ez]; [|lia].
    exfalso. apply HND. exists (d0 / 2 ^ k). lia. }
  assert (G : forall n, n <= l_nodes (lay_of b) ->
    exists D, foldM (fun q => write_node real b obj q (bufs q)) (seq 0 n)
        (mkD (rev (l_size (lay_of b)) ++ tail obj) ty (fun _ => None)) = Val D /\
      d_dims D = rev (build_size b) ++ tail obj /\ d_ty D = ty /\
      forall c j, in_lattice (build_size b) c -> in_lattice (tail obj) j -> last c 0 mod d0 = d0 - 1 -> d_val D (rev c ++ j) = None).
  { induction n as [|n IH]; intros Hn.
    - eexists. split; [reflexivity|]. easy.
    - destruct IH as (D & E & Hd & Ht & Hv); [lia|]. rewrite seq_S, foldM_app, E. cbn [bind foldM Nat.add].
      assert (Hq : n < l_nodes (lay_of b)) by lia.
      destruct (node_box b true obj n Hb Ho Hq) as (HL & _ & HS & _ & _). cbn [order] in HS.
      destruct (node_sites b n Hb Hq) as (HSl & HOl & _ & _).
      destruct (dims_cons b true obj n Hb Hq) as (d & rest & Ed & Ed0). cbn in Ed0. fold d0 in Ed0. subst d.
      assert (HV : volume (node_dims b true obj) = obj * volume (sub_size b)).
      { unfold node_dims. rewrite volume_app, order_volume. destruct (tail_facts obj Ho) as (-> & _). lia. }
      unfold write_node. rewrite Ht, vol_volume, (split_ok _ _ _ k HK).
      destruct (node_offset b true obj n) as [|o0 orest] eqn:Eo; [rewrite Ed in HL; discriminate|].
      rewrite Ed in *. cbn [get nth tl].
      assert (Hes : h5size (d_ty D) * (d0 / 2 ^ k * volume rest) <= h5size ty * obj * volume (sub_size b) / 2 ^ k).
      { rewrite Ht, <- Nat.mul_assoc, <- HV. cbn [volume].
        replace (h5size ty * (d0 / 2 ^ k * volume rest)) with (h5size ty * volume rest * (d0 / 2 ^ k)) by ring.
        replace (h5size ty * (d0 * volume rest)) with (h5size ty * volume rest * d0) by ring. now apply Nat.div_mul_le. }
      destruct (block_frame D o0 orest (d0 / 2 ^ k) rest (h5size ty * obj * volume (sub_size b) / 2 ^ k) (bufs n) (2 ^ k)) as (D1 & E1 & Hd1 & Ht1 & Hv1).
      + rewrite Hd. revert HS. destruct (rev (build_size b) ++ tail obj) as [|x dims]; [easy|]. cbn [in_space].
        rewrite !andb_true_iff, !Nat.leb_le. intros [H1 H2]. split; [lia|easy].
      + exact Hes.
      + rewrite HB by easy. now apply Nat.mul_div_le.
      + rewrite E1. cbn [bind]. exists D1. split; [easy|]. split; [congruence|]. split; [congruence|].
        intros c j Hc Hj Hm. rewrite Hv1; [now apply Hv|].
        assert (HcN : c <> []). { intros ->. apply in_lattice_length in Hc. cbn in Hc. lia. }
        destruct (exists_last HcN) as (c' & x & ->). rewrite rev_app_distr, last_last in *. cbn [rev app in_slab].
        (* the offset of the node in this direction *)
        destruct (origin_last b n Hb Hq) as [z Hz]. fold d0 in Hz.
        assert (Eo0 : o0 = z * d0).
        { unfold node_offset in Eo. fold (origin b n) in Eo. cbn [order] in Eo.
          assert (HON : origin b n <> []) by (intros E'; rewrite E' in HOl; cbn in HOl; lia).
          destruct (exists_last HON) as (o' & y & Ey). rewrite Ey, rev_app_distr in Eo. rewrite Ey, last_last in Hz. cbn in Eo. congruence. }
        apply andb_false_iff. left. apply andb_false_iff. rewrite Nat.leb_gt, Nat.ltb_ge.
        destruct (Nat.le_gt_cases o0 x) as [H1|H1]; [right|now left].
        destruct (Nat.le_gt_cases (o0 + 2 ^ k * (d0 / 2 ^ k)) x) as [H2|H2]; [easy|exfalso].
        assert (K : x mod d0 = x - o0).
        { symmetry. apply (Nat.mod_unique x d0 z); [lia|]. rewrite Eo0. rewrite Eo0 in H1. lia. }
        lia. }
  destruct (G _ (le_n _)) as (D & E & _ & _ & Hv). exists D. split; [exact E|exact Hv].
Qed.

(** ** A buffer shorter than the field *)
Lemma foldM_undef {A S} (f : A -> S -> res S) l a : (forall x s, f x s = Undef \/ exists s', f x s = Val s') ->
  (forall s, f a s = Undef) -> forall s, foldM f (l ++ [a]) s = Undef.
Proof.
  intros H Ha. induction l as [|x l IH]; intros s; cbn [app foldM]; [now rewrite Ha|].
  destruct (H x s) as [->|(s' & ->)]; cbn; [easy|apply IH].
Qed.

Lemma to_layout_short e b w n (bytes : list N) q F : 0 < volume (sub_size b) -> length (reordermap b q) = volume (sub_size b) ->
  length bytes < volume (sub_size b) * (n * w) -> to_layout e b w n (map Some bytes) q [F] = Undef.
Proof.
  intros HV HL HB. unfold to_layout. rewrite vol_volume. set (V := volume (sub_size b)) in *.
  assert (HP : forall x Gs, length Gs = 1 ->
     (mapM (fun p => put_elem e w n (map Some bytes) q (snd x) (fst p + length Gs * fst x) (snd p)) (combine (seq 0 (length Gs)) Gs) = Undef)
     \/ exists Gs', length Gs' = 1 /\
        mapM (fun p => put_elem e w n (map Some bytes) q (snd x) (fst p + length Gs * fst x) (snd p)) (combine (seq 0 (length Gs)) Gs) = Val Gs').
  { intros x [|G0 [|]] HG; cbn in HG; try lia. cbn [length seq combine mapM fst snd]. unfold put_elem. rewrite map_length.
    destruct (Nat.ltb_spec (length bytes) ((0 + 1 * fst x + 1) * (n * w))); [now left|]. right.
    rewrite chunk_map, known_some. cbn [bind]. eexists. split; [|reflexivity]. easy. }
  assert (EQ : exists i l, combine (seq 0 V) (reordermap b q) = l ++ [(V - 1, i)]).
  { revert HL HV. clearbody V. clear. intros HL HV. destruct (exists_last (l := reordermap b q)) as (r & i & E).
    { intros E. rewrite E in HL. cbn in HL. lia. }
    rewrite E in *. rewrite app_length in HL. cbn in HL. exists i, (combine (seq 0 (V - 1)) r).
    replace V with (S (V - 1)) at 1 by lia. rewrite seq_S. cbn [Nat.add].
    assert (G : forall (a : list nat) (c : list nat), length a = length c -> combine (a ++ [V - 1]) (c ++ [i]) = combine a c ++ [(V - 1, i)]).
    { induction a as [|y a IH]; intros [|z c] H; cbn in *; try lia; [easy|]. now rewrite IH by lia. }
    apply G. rewrite seq_length. lia. }
  destruct EQ as (i & l & ->).
  assert (HG : forall l Gs, length Gs = 1 -> foldM (fun r Fs => mapM (fun p => put_elem e w n (map Some bytes) q (snd r) (fst p + length Fs * fst r) (snd p))
                         (combine (seq 0 (length Fs)) Fs)) (l ++ [(V - 1, i)]) Gs = Undef); [|now apply HG].
  clear l. induction l as [|x l IH]; intros Gs HG; cbn [app foldM].
  - destruct Gs as [|G0 [|]]; cbn in HG; try lia. cbn [length seq combine mapM fst snd]. unfold put_elem. rewrite map_length.
    replace (length bytes <? _) with true; [easy|]. symmetry. apply Nat.ltb_lt. replace (0 + 1 * (V - 1) + 1) with V by lia. easy.
  - destruct (HP x Gs HG) as [->|(Gs' & HG' & ->)]; cbn [bind]; [easy|now apply IH].
Qed.

Lemma convert_known e conv hs w tot (bytes : list N) :
  exists bytes', convert e conv hs w tot (map Some bytes) = map Some bytes' /\ length bytes' = tot * w.
Proof.
  unfold convert. exists (flat_map (fun i => mem e w (conv hs w (word e (chunk (i * hs) hs bytes)))) (seq 0 tot)). split.
  - rewrite map_flat_map. apply flat_map_ext. intros i. now rewrite chunk_map, known_some.
  - rewrite flat_map_concat_map, (concat_length_eq w); [rewrite map_length, seq_length; lia|].
    intros l Hl. apply in_map_iff in Hl. destruct Hl as (i & <- & _). apply mem_length.
Qed.

Lemma read_nodes_short e conv b hs w n m obj D k F : build_ok b -> 0 < obj -> hs = 4 \/ hs = 8 -> 0 < w ->
  d_dims D = rev (build_size b) ++ tail obj -> h5size (d_ty D) = m * hs -> sized D true b obj ->
  halvings hs (m * obj * volume (sub_size b)) k -> Nat.divide (2 ^ k) (last (sub_size b) 0) -> m * obj < n ->
  read_nodes e conv b true hs w n obj (m * obj * volume (sub_size b)) D [F] = Undef.
Proof.
  intros Hb Ho Hhs Hw Hdims Hes HZ HK HD Hn. unfold read_nodes. assert (Hq := nodes_pos b Hb).
  destruct (l_nodes (lay_of b)) as [|nn] eqn:EN; [lia|]. cbn [seq foldM].
  assert (Hq' : 0 < l_nodes (lay_of b)) by lia. destruct (node_sites b 0 Hb Hq') as (HS & HO & HP & _).
  assert (HVp : 0 < volume (sub_size b)) by now apply volume_pos.
  rewrite (read_node_ok b true hs m obj 0 D k Hb Ho Hq' Hhs (or_introl eq_refl) Hdims Hes HZ HK HD). cbn [bind].
  set (bytes := concat _). assert (HLB : length bytes = m * obj * volume (sub_size b) * hs).
  { unfold bytes. rewrite (concat_length_eq (m * hs * obj)).
    - rewrite map_length, all_sites_length. ring.
    - intros x Hx. apply in_map_iff in Hx. destruct Hx as (l & <- & Hl). apply all_sites_in in Hl.
      rewrite (site_data_length D true b obj), Hes; [easy|easy|easy|now apply site_of]. }
  assert (HT : forall bs : list N, length bs = m * obj * volume (sub_size b) * w -> to_layout e b w n (map Some bs) 0 [F] = Undef).
  { intros bs Hbs. apply to_layout_short; [easy|now apply reordermap_length|]. rewrite Hbs.
    replace (m * obj * volume (sub_size b) * w) with (m * obj * (volume (sub_size b) * w)) by ring.
    replace (volume (sub_size b) * (n * w)) with (n * (volume (sub_size b) * w)) by ring.
    apply Nat.mul_lt_mono_pos_r; [|easy]. clear -Hw HVp. nia. }
  destruct (Nat.eqb_spec hs w) as [->|Hne].
  - now rewrite HT.
  - destruct (convert_known e conv hs w (m * obj * volume (sub_size b)) bytes) as (bs & -> & Hbs). rewrite HT; [easy|lia].
Qed.

(** C84: what cannot be read back, and concrete cases. *)
From Coq Require Import List Arith NArith Bool Lia.
From Verif Require Import Base LayoutModel LayoutSpec LayoutProofs LayoutOk LayoutCases CrcModel SwapProofs IoProofs LatIoModel LatIoSpec
  LatIoProofs LatIoOk IoNodeProofs Hdf5Model Hdf5Spec Hdf5Proofs Hdf5Blocks Hdf5Xfer Hdf5Read Hdf5Ok Hdf5Bad PropHdf5.
Import ListNotations.
Local Open Scope nat_scope.

(** A field of one word per site (LatticeReal) is written, and its dataset is refused. *)
Theorem C84_real_refuted : forall e conv w b b' F G, build_ok b -> 0 < w -> field_ok w 1 b F ->
  cuts w (w * local_sites b) (local_last b) -> length (build_size b') = length (build_size b) ->
  exists D, write_generic e w b w 1 F = Val D /\ forall w' n, read_generic e conv b' true w' n D G = Abort.
Proof.
  intros e conv w b b' F G Hb Hw HF HC HL.
  destruct (write_fields e w b (HFloat w) 1 w 1 [F] Hb) as (D & E & Hd & Ht & _).
  - lia.
  - cbn. lia.
  - constructor; [exact HF|constructor].
  - cbn [h5size]. now rewrite Nat.mul_1_r.
  - exists D. split.
    + unfold write_generic. rewrite Nat.div_mul by lia. rewrite (Nat.mul_comm w 1). exact E.
    + intros w' n. unfold read_generic. fold (build_size b'). destruct (_ || _); cbn [negb]; [|easy].
      rewrite Hd, app_length, rev_length. cbn [length tail Nat.ltb Nat.leb].
      replace (length (build_size b) + 0 =? length (build_size b') + 1) with false by (symmetry; apply Nat.eqb_neq; lia). easy.
Qed.

(** Objects smaller than the build's float (LatticeInteger where REAL is double): the buffer handed to HDF5 is empty. *)
Theorem C84_small_refuted : forall e real b w n F, build_ok b -> n * w < real -> write_generic e real b w n F = Undef.
Proof.
  intros e real b w n F Hb Hs. unfold write_generic. rewrite Nat.div_small by easy. rewrite Nat.mul_0_r.
  unfold write_nodes. assert (Hq := nodes_pos b Hb). destruct (l_nodes (lay_of b)) as [|nn] eqn:EN; [lia|]. cbn [seq foldM].
  assert (Hq' : 0 < l_nodes (lay_of b)) by lia.
  destruct (node_box b true 1 0 Hb ltac:(lia) Hq') as (HL & HL2 & HS & _ & _). cbn [order] in HS.
  destruct (dims_cons b true 1 0 Hb Hq') as (d0 & rest & Ed & _). destruct (node_sites b 0 Hb Hq') as (_ & _ & HP & _).
  change (node_dims b true 0) with (node_dims b true 1) in *. change (node_offset b true 0 0) with (node_offset b true 1 0) in *.
  unfold write_node. cbn [d_ty h5size]. rewrite Nat.mul_0_r, Nat.mul_0_l.
  change (node_dims b true 0) with (node_dims b true 1). change (node_offset b true 0 0) with (node_offset b true 1 0).
  assert (HK : halvings real 0 0). { split; [cbn; lia|]. intros; lia. }
  rewrite (split_ok _ _ _ 0 HK). cbn [Nat.pow]. rewrite !Nat.div_1_r. cbn [seq foldM].
  destruct (node_offset b true 1 0) as [|o0 orest] eqn:Eo; [rewrite Ed in HL; discriminate|]. rewrite Ed in *. cbn [get nth tl Nat.mul].
  rewrite Nat.add_0_r. unfold h5_write. cbn [d_dims d_ty d_val]. change (tail 0) with (tail 1). fold (build_size b).
  rewrite HL2, Nat.eqb_refl. cbn [negb]. rewrite HS. cbn [negb h5size].
  assert (HV : 0 < volume (d0 :: rest)).
  { rewrite <- Ed. unfold node_dims. cbn [tail Nat.ltb Nat.leb]. rewrite app_nil_r, order_volume. now apply volume_pos. }
  assert (HE : to_host e b w 0 [F] 0 = []).
  { unfold to_host. induction (reordermap b 0) as [|x l IH]; [easy|]. exact IH. }
  rewrite HE. cbn [skipn length]. replace (0 <? real * volume (d0 :: rest)) with true by (symmetry; apply Nat.ltb_lt; nia). easy.
Qed.

(** A single-precision colour matrix has a typed dataset that no reader takes. *)
Theorem C84_F3_refuted : forall e conv real b F G, build_ok b -> build_kind b <> CB3D -> field_ok 4 18 b F ->
  cuts real (72 * local_sites b) (local_last b) ->
  exists D, write_colmat e real b 4 F = Val D /\ typed_dset e b (HColMat 4) 4 F D /\
    forall b' inv, read_colmat_f e conv b' inv D G = Abort.
Proof.
  intros e conv real b F G Hb Hk HF HC.
  destruct (C84_typed_format e real 4 b F (HColMat 4) 18 Hb Hk) as (D & E & HD); [now left|easy|easy|].
  exists D. split; [exact E|]. split; [easy|]. intros b' inv. destruct HD as (_ & Ht & _).
  unfold read_colmat_f, read_generic. rewrite Ht. easy.
Qed.

(** An array of one colour matrix has no index for the member, and its reader looks for one. *)
Theorem C84_one_colmat_refuted : forall e conv real b F Z, build_ok b -> build_kind b <> CB3D -> field_ok 8 18 b F ->
  cuts real (144 * local_sites b) (local_last b) ->
  exists D, write_colmats e real b [F] = Val D /\
    forall b' inv, build_size b' = build_size b -> read_colmats e conv b' inv D Z = Undef.
Proof.
  intros e conv real b F Z Hb Hk HF HC.
  destruct (C84_typed_format e real 8 b F (HColMat 8) 18 Hb Hk) as (D & E & HD); [now left|easy|easy|].
  exists D. split; [exact E|]. intros b' inv HS. destruct HD as (Hd & _ & _). unfold read_colmats. fold (build_size b').
  rewrite HS, Hd, rev_length, Nat.leb_refl. easy.
Qed.

(** Where the parts of at most 2 GB do not cut a node's extent evenly, its last rows are never written. *)
Theorem C84_split_refuted : forall e w b n F k, build_ok b -> 0 < w -> 2 <= n -> field_ok w n b F ->
  halvings w (n * w * local_sites b) k -> ~ Nat.divide (2 ^ k) (local_last b) ->
  exists D, write_generic e w b w n F = Val D /\
    forall c j, in_lattice (build_size b) c -> j < n -> last c 0 mod local_last b = local_last b - 1 ->
      d_val D (rev c ++ [j]) = None.
Proof.
  intros e w b n F k Hb Hw H2 HF HK HD. destruct (local_facts b Hb) as (E1 & E2 & _). rewrite E1 in HK. rewrite E2 in HD |- *.
  destruct (lost_rows w b (HFloat w) n (to_host e b w (n * w) [F]) k Hb) as (D & E & Hv).
  - lia.
  - cbn [h5size]. now rewrite (Nat.mul_comm w n).
  - exact HD.
  - intros q Hq. cbn [h5size]. assert (HFs : Forall (field_ok w n b) [F]) by (constructor; [exact HF|constructor]).
    rewrite to_host_eq by easy. rewrite (concat_length_eq (w * n)).
    + rewrite map_length. destruct (visited_facts b q Hb Hq) as (-> & _). easy.
    + intros x Hx. apply in_map_iff in Hx. destruct Hx as (c & <- & Hc). apply visited_facts in Hc; [|easy|easy].
      rewrite image_length. destruct (words_at_facts w n b [F] c HFs (proj1 Hc)) as [-> _]. cbn. lia.
  - exists D. split.
    + unfold write_generic. rewrite Nat.div_mul by lia. now rewrite (Nat.mul_comm w n).
    + intros c j Hc Hj Hl. apply Hv; [easy| |easy]. rewrite tail2 by easy. repeat constructor. easy.
Qed.

(** A dataset of fewer words per site than the object asked for: the buffer is read beyond its end. *)
Lemma short_read e conv b hs w n n' D G : build_ok b -> hs = 4 \/ hs = 8 -> 0 < w -> 2 <= n -> n < n' ->
  d_dims D = rev (build_size b) ++ [n] -> d_ty D = HFloat hs -> sized D true b n -> cuts hs (n * local_sites b) (local_last b) ->
  read_generic e conv b true w n' D G = Undef.
Proof.
  intros Hb Hhs Hw H2 Hn Hd Ht HZ (k & HK & HD). destruct (local_facts b Hb) as (E1 & E2 & _). rewrite E1 in HK. rewrite E2 in HD.
  unfold read_generic. rewrite Ht. cbn [h5size]. fold (build_size b).
  replace ((hs =? 4) || (hs =? 8)) with true by (destruct Hhs; subst; easy). cbn [negb].
  rewrite Hd, app_length, rev_length. cbn [length]. rewrite Nat.eqb_refl. cbn [negb].
  assert (ES : same_lattice true b (rev (build_size b) ++ [n]) = true) by (apply same_lattice_app; [apply rev_length|easy]).
  rewrite ES. cbn [negb].
  replace (get (rev (build_size b) ++ [n]) (length (build_size b))) with n.
  2:{ unfold get. rewrite app_nth2; rewrite rev_length; [|lia]. now rewrite Nat.sub_diag. }
  assert (R := read_nodes_short e conv b hs w n' 1 n D k G Hb ltac:(lia) Hhs Hw). rewrite !Nat.mul_1_l in R. rewrite vol_volume. apply R; try easy.
  - now rewrite tail2.
  - now rewrite Ht.
Qed.

Theorem C84_other_type_refuted : forall e conv hs w b b' n n' F D G, words_dset e b hs n F D ->
  build_ok b' -> build_size b' = build_size b -> hs = 4 \/ hs = 8 -> 0 < w -> 2 <= n -> n < n' ->
  cuts hs (n * local_sites b') (local_last b') -> read_generic e conv b' true w n' D G = Undef.
Proof.
  intros e conv hs w b b' n n' F D G (Hd & Ht & Hv) Hb HS Hhs Hw H2 Hn HC.
  apply (short_read e conv b' hs w n n' D G); try easy; [now rewrite HS|].
  intros c j Hc Hj. rewrite HS in Hc. rewrite tail2 in Hj by easy. inversion Hj as [|x ? j' ? Hx Hl]; subst. inversion Hl; subst.
  unfold h5_elem. cbn [order]. rewrite Hv by easy. rewrite Ht. apply mem_length.
Qed.

(** Fields of floats written by a build whose REAL is double cannot be read back by it. *)
Theorem C84_float_refuted : forall e conv b n F G, build_ok b -> 2 <= n -> field_ok 4 (2 * n) b F ->
  cuts 8 (n * 8 * local_sites b) (local_last b) -> cuts 8 (n * local_sites b) (local_last b) ->
  exists D, write_generic e 8 b 4 (2 * n) F = Val D /\ read_generic e conv b true 4 (2 * n) D G = Undef.
Proof.
  intros e conv b n F G Hb H2 HF HC HC'.
  assert (HFs : Forall (field_ok 4 (2 * n) b) [F]) by (constructor; [exact HF|constructor]).
  destruct (write_fields e 8 b (HFloat 8) n 4 (2 * n) [F] Hb) as (D & E & Hd & Ht & Hv); try easy.
  - lia.
  - cbn [h5size length]. lia.
  - cbn [h5size]. now rewrite (Nat.mul_comm 8 n).
  - exists D. split.
    + unfold write_generic. replace (2 * n * 4) with (n * 8) by lia. rewrite Nat.div_mul by lia.
      replace (8 * n) with (2 * n * 4) by lia. exact E.
    + apply (short_read e conv b 8 4 n (2 * n) D G); try easy; try lia; [now rewrite Hd, tail2|].
      intros c j Hc Hj. unfold h5_elem. cbn [order]. destruct (local_of b c Hb Hc) as [Hq (l & Hl & El)].
      apply all_sites_in in Hl. destruct (In_nth_error _ _ Hl) as [run Hr].
      destruct (visited_facts b _ Hb Hq) as (HLv & _ & HIn).
      assert (Hrl : run < length (visited b (l_node (lay_of b) c))) by (rewrite HLv, <- all_sites_length; apply nth_error_Some; congruence).
      destruct (nth_error_lt _ _ Hrl) as [c' Hc']. assert (Hin := nth_error_In _ _ Hc'). apply HIn in Hin.
      rewrite El. rewrite (Hv _ run l c' j Hq Hr Hc' Hj). rewrite Ht. apply chunk_length. rewrite image_length.
      destruct (words_at_facts 4 (2 * n) b [F] c' HFs (proj1 Hin)) as [-> _]. cbn [h5size length].
      rewrite tail2 in * by easy. inversion Hj as [|x ? j' ? Hx Hl']; subst. inversion Hl'; subst. cbn [row_num volume]. lia.
Qed.

(** Fields of doubles written by a build whose REAL is float: what is read back does not depend on the second half
    of the field, whatever the conversion. *)
Lemma firstn_le {A} K m (l1 l2 : list A) : firstn K l1 = firstn K l2 -> m <= K -> firstn m l1 = firstn m l2.
Proof. intros H Hm. rewrite <- (Nat.min_l m K Hm), <- !firstn_firstn. now rewrite H. Qed.
Lemma chunk_prefix {A} K p m (l1 l2 : list A) : firstn K l1 = firstn K l2 -> p + m <= K -> chunk p m l1 = chunk p m l2.
Proof.
  intros H Hm. assert (E : forall l : list A, chunk p m l = chunk p m (chunk 0 K l)).
  { intros l. now rewrite chunk_chunk. }
  rewrite (E l1), (E l2). unfold chunk at 2 4. cbn [skipn]. now rewrite H.
Qed.

Theorem C84_double_refuted : forall e conv k L n F1 F2 G, let b := Single k L in
  build_ok b -> k <> CB3D -> 1 <= n -> field_ok 8 n b F1 -> field_ok 8 n b F2 ->
  cuts 4 (n * 8 * local_sites b) (local_last b) -> cuts 4 (2 * n * local_sites b) (local_last b) ->
  (forall s c, nth_error (all_sites L) s = Some c -> 2 * s < volume L -> field_at b F1 c = field_at b F2 c) ->
  exists D1 D2 R1 R2, write_generic e 4 b 8 n F1 = Val D1 /\ write_generic e 4 b 8 n F2 = Val D2 /\
    read_generic e conv b true 8 n D1 G = Val [R1] /\ read_generic e conv b true 8 n D2 G = Val [R2] /\
    forall c, in_lattice L c -> field_at b R1 c = field_at b R2 c.
Proof.
  intros e conv k L n F1 F2 G b Hb Hk Hn HF1 HF2 HC HC' Hag.
  assert (HV : 0 < volume L) by (destruct (size_ok b Hb) as [_ HP]; now apply volume_pos).
  assert (Hk' : build_kind b <> CB3D) by exact Hk.
  assert (HQ : 0 < l_nodes (lay_of b)) by (cbn; lia).
  set (bytes := fun F => concat (map (fun l => image e 8 (field_at b F (shift (origin b 0) l))) (all_sites L))).
  set (cv := fun F => flat_map (fun i => mem e 8 (conv 4 8 (word e (chunk (i * 4) 4 (bytes F))))) (seq 0 (2 * n * volume L))).
  assert (HR : forall F, field_ok 8 n b F -> exists D R, write_generic e 4 b 8 n F = Val D /\ read_generic e conv b true 8 n D G = Val [R] /\
     forall run i, nth_error (reordermap b 0) run = Some i -> R 0 i = unimage e 8 n (chunk (run * (n * 8)) (n * 8) (cv F))).
  { intros F HF. destruct (write_fields_at e 4 b (HFloat 4) (2 * n) 8 n [F] Hb Hk') as (D & E & Hd & Ht & Hv).
    - lia.
    - cbn [h5size length]. lia.
    - constructor; [exact HF|constructor].
    - cbn [h5size]. now replace (4 * (2 * n)) with (n * 8) by lia.
    - rewrite tail2 in * by lia.
      assert (HZ : sized D true b (2 * n)).
      { intros c j Hc Hj. rewrite tail2 in Hj by lia. unfold h5_elem. cbn [order]. rewrite (Hv c j Hc Hj), Ht. apply chunk_length.
        inversion Hj as [|x ? j' ? Hx Hl]; subst. inversion Hl; subst. rewrite image_length. unfold words_at. cbn [map concat].
        rewrite app_nil_r. destruct (HF c Hc) as [-> _]. cbn [h5size row_num volume]. lia. }
      assert (HSD : forall c, in_lattice L c -> site_data D true (2 * n) c = image e 8 (field_at b F c)).
      { intros c Hc. unfold site_data. rewrite tail2 by lia.
        rewrite map_ext_in with (g := fun j => chunk (0 + row_num [2 * n] j * 4) 4 (image e 8 (field_at b F c))).
        2:{ intros j Hj. apply row_major_in in Hj. unfold h5_elem. cbn [order]. rewrite (Hv c j Hc Hj). unfold words_at. cbn [map concat h5size].
            rewrite app_nil_r. f_equal. cbn [Nat.add]. lia. }
        rewrite <- (map_map (row_num [2 * n]) (fun x => chunk (0 + x * 4) 4 (image e 8 (field_at b F c)))), row_num_all, concat_chunks.
        unfold chunk. cbn [skipn]. apply firstn_all2. rewrite image_length. destruct (HF c Hc) as [-> _]. cbn [volume]. lia. }
      destruct HC' as (kk & HK & HD).
      assert (HRN := read_node_ok b true 4 1 (2 * n) 0 D kk Hb ltac:(lia) HQ (or_introl eq_refl) (or_introl eq_refl)).
      rewrite !Nat.mul_1_l in HRN. cbn [order] in HRN. rewrite tail2 in HRN by lia.
      specialize (HRN Hd ltac:(now rewrite Ht) HZ HK HD).
      assert (EB : concat (map (fun l => site_data D true (2 * n) (shift (origin b 0) l)) (all_sites (sub_size b))) = bytes F).
      { unfold bytes. f_equal. apply map_ext_in. intros l Hl. apply all_sites_in in Hl. apply HSD. now apply (site_of b 0 l Hb HQ). }
      rewrite EB in HRN.
      assert (ECv : convert e conv 4 8 (2 * n * volume L) (map Some (bytes F)) = map Some (cv F)).
      { unfold convert, cv. rewrite map_flat_map. apply flat_map_ext. intros i. now rewrite chunk_map, known_some. }
      assert (HLc : length (cv F) = 2 * n * volume L * 8).
      { unfold cv. rewrite flat_map_concat_map, (concat_length_eq 8); [rewrite map_length, seq_length; lia|].
        intros l Hl. apply in_map_iff in Hl. destruct Hl as (i & <- & _). apply mem_length. }
      destruct (to_layout_ok e b 8 n (cv F) 0 [G]) as (Fs' & E' & HL' & Hv').
      { now apply visited_facts. }
      { now apply reordermap_length. }
      { rewrite HLc. cbn [length sub_size b]. lia. }
      destruct Fs' as [|R [|]]; cbn in HL'; try lia. exists D, R.
      split; [unfold write_generic; replace (n * 8 / 4) with (2 * n) by (replace (n * 8) with (2 * n * 4) by lia; now rewrite Nat.div_mul);
              replace (4 * (2 * n)) with (n * 8) by lia; exact E|].
      split.
      + unfold read_generic. rewrite Ht. cbn [h5size Nat.eqb orb negb]. fold (build_size b). rewrite Hd, app_length, rev_length. cbn [length].
        rewrite Nat.eqb_refl. cbn [negb].
        assert (ES : same_lattice true b (rev (build_size b) ++ [2 * n]) = true) by (apply same_lattice_app; [apply rev_length|easy]).
        rewrite ES. cbn [negb].
        replace (get (rev (build_size b) ++ [2 * n]) (length (build_size b))) with (2 * n).
        2:{ unfold get. rewrite app_nth2; rewrite rev_length; [|lia]. now rewrite Nat.sub_diag. }
        unfold read_nodes. cbn [lay_of b scalar_layout l_nodes seq foldM]. fold b. rewrite vol_volume. change (sub_size b) with L in *.
        rewrite HRN. cbn [bind Nat.eqb]. rewrite ECv, E'. reflexivity.
      + intros run i Hi. destruct (Hv' 0 G R eq_refl eq_refl) as [_ H]. rewrite (H run i Hi). cbn [length]. do 2 f_equal. lia. }
  destruct (HR F1 HF1) as (D1 & R1 & W1 & RD1 & V1). destruct (HR F2 HF2) as (D2 & R2 & W2 & RD2 & V2).
  exists D1, D2, R1, R2. split; [easy|]. split; [easy|]. split; [easy|]. split; [easy|]. intros c Hc.
  destruct (visited_at b c Hb Hk' Hc) as [_ (run & l & H1 & _ & H3 & _)]. change (l_node (lay_of b) c) with 0 in H3.
  unfold field_at. change (l_node (lay_of b) c) with 0. rewrite (V1 run _ H3), (V2 run _ H3). f_equal.
  assert (Hrun : run < volume L) by (rewrite <- (all_sites_length L); apply nth_error_Some; change (sub_size b) with L in H1; congruence).
  (* the first half of the buffers *)
  assert (HB : firstn (n * volume L * 4) (bytes F1) = firstn (n * volume L * 4) (bytes F2)).
  { set (h := (volume L + 1) / 2). assert (Hh : volume L <= 2 * h /\ 2 * h <= volume L + 1).
    { unfold h. assert (K := Nat.div_mod (volume L + 1) 2 ltac:(lia)). assert (K' := Nat.mod_upper_bound (volume L + 1) 2 ltac:(lia)). lia. }
    assert (ES : forall F, bytes F = concat (map (fun l => image e 8 (field_at b F (shift (origin b 0) l))) (firstn h (all_sites L)))
        ++ concat (map (fun l => image e 8 (field_at b F (shift (origin b 0) l))) (skipn h (all_sites L)))).
    { intros F. unfold bytes. now rewrite <- concat_app, <- map_app, firstn_skipn. }
    assert (EX : concat (map (fun l => image e 8 (field_at b F1 (shift (origin b 0) l))) (firstn h (all_sites L)))
               = concat (map (fun l => image e 8 (field_at b F2 (shift (origin b 0) l))) (firstn h (all_sites L)))).
    { f_equal. apply map_ext_in. intros l0 Hl0. f_equal. destruct (In_nth_error _ _ Hl0) as [s Hs].
      assert (Hsh : s < h). { assert (K : s < length (firstn h (all_sites L))) by (apply nth_error_Some; congruence). rewrite firstn_length in K. lia. }
      assert (Hs' : nth_error (all_sites L) s = Some l0).
      { rewrite <- (firstn_skipn h (all_sites L)), nth_error_app1; [easy|]. apply nth_error_Some. congruence. }
      assert (Hin : in_lattice L l0) by (apply all_sites_in, (nth_error_In _ _ Hs')).
      assert (EV := visited_lex b 0 Hb Hk' HQ). assert (EO : shift (origin b 0) l0 = l0).
      { destruct (node_sites b 0 Hb HQ) as (_ & _ & _ & EN). cbn [lay_of b scalar_layout l_node Nat.eqb build_size l_size sub_size] in EN.
        rewrite filter_every in EN by easy.
        assert (K := f_equal (fun x => nth_error x s) EN). cbn beta in K. rewrite nth_error_map in K.
        change (l_size (lay_of b)) with L in K. rewrite Hs' in K. cbn in K. injection K as K. now symmetry. }
      rewrite EO. apply (Hag s l0 Hs'). lia. }
    assert (HLX : n * volume L * 4 <= length (concat (map (fun l => image e 8 (field_at b F1 (shift (origin b 0) l))) (firstn h (all_sites L))))).
    { rewrite (concat_length_eq (8 * n)).
      - rewrite map_length, firstn_length, all_sites_length. nia.
      - intros x Hx. apply in_map_iff in Hx. destruct Hx as (l0 & <- & Hl0). rewrite image_length. f_equal.
        assert (Hin : In l0 (all_sites L)) by (rewrite <- (firstn_skipn h (all_sites L)); apply in_or_app; now left).
        apply all_sites_in in Hin. destruct (site_of b 0 l0 Hb HQ Hin) as [Hin' _]. now apply HF1. }
    rewrite (ES F1), (ES F2), <- EX. rewrite !firstn_app. replace (n * volume L * 4 - length _) with 0 by lia. easy. }
  apply (chunk_prefix (n * volume L * 8)); [|nia].
  assert (EP : forall F, firstn (n * volume L * 8) (cv F)
     = flat_map (fun i => mem e 8 (conv 4 8 (word e (chunk (i * 4) 4 (bytes F))))) (seq 0 (n * volume L))).
  { intros F. unfold cv. replace (2 * n * volume L) with (n * volume L + n * volume L) by lia. rewrite seq_app, flat_map_app_l.
    rewrite firstn_app_l; [easy|]. rewrite flat_map_concat_map, (concat_length_eq 8); [rewrite map_length, seq_length; lia|].
    intros x Hx. apply in_map_iff in Hx. destruct Hx as (i & <- & _). apply mem_length. }
  rewrite !EP. apply flat_map_ext_in'. intros i Hi. apply in_seq in Hi. do 3 f_equal. apply (chunk_prefix (n * volume L * 4)); [easy|lia].
Qed.

(** writeQlua stores the directions in reverse order and readQlua expects them in the order of the file: if the
    extents are not the same in both orders the file is refused, otherwise every value comes back at the
    site with the reversed coordinates. *)
Lemma qlua_written e real b Us : build_ok b -> build_kind b <> CB3D -> length Us = length (build_size b) ->
  Forall (field_ok 8 18 b) Us -> cuts real (144 * local_sites b) (local_last b) ->
  exists Ds, write_qlua e real b Us = Val Ds /\ Forall2 (fun U D => typed_dset e b (HColMat 8) 8 U D) Us Ds.
Proof.
  intros Hb Hk HL HF HC. unfold write_qlua. fold (build_size b). rewrite HL, Nat.eqb_refl. cbn [negb]. clear HL.
  induction HF as [|U Us HU HF IH]; [now exists []|]. destruct IH as (Ds & E & H2).
  destruct (C84_typed_format e real 8 b U (HColMat 8) 18 Hb Hk) as (D & E' & HD); [now left|easy|easy|].
  exists (D :: Ds). cbn [mapM]. cbn [Nat.eqb] in E'. rewrite E'. cbn [bind]. rewrite E. split; [easy|]. now constructor.
Qed.

Theorem C84_qlua_refuted : forall e conv real b Us Z, build_ok b -> build_kind b <> CB3D -> length Us = length (build_size b) ->
  Forall (field_ok 8 18 b) Us -> cuts real (144 * local_sites b) (local_last b) ->
  exists Ds, write_qlua e real b Us = Val Ds /\
    (build_size b <> rev (build_size b) -> read_qlua e conv b Ds Z = Abort) /\
    (build_size b = rev (build_size b) -> length (build_size b) = 4 -> cuts 8 (18 * local_sites b) (local_first b) ->
     exists Rs, read_qlua e conv b Ds Z = Val Rs /\ Forall2 (fun U R => exists V, R = [V] /\
       forall c, in_lattice (build_size b) c -> field_at b V c = field_at b U (rev c)) Us Rs).
Proof.
  intros e conv real b Us Z Hb Hk HL HF HC. destruct (qlua_written e real b Us Hb Hk HL HF HC) as (Ds & E & H2).
  exists Ds. split; [exact E|]. assert (HLD : length Ds = length Us) by (clear -H2; induction H2; cbn; congruence).
  destruct (size_ok b Hb) as [H0 _]. unfold read_qlua. fold (build_size b). rewrite HLD, HL, Nat.eqb_refl. cbn [negb]. split.
  - intros Hne. destruct H2 as [|U D Us' Ds' (Hd & Ht & _) _]; [cbn in HL; lia|]. cbn [mapM]. unfold read_colmat at 1. rewrite Ht, Hd.
    fold (build_size b). rewrite rev_length, Nat.eqb_refl. cbn [negb].
    replace (same_lattice false b (rev (build_size b))) with false; [easy|]. symmetry. apply not_true_iff_false. intros K.
    rewrite <- (app_nil_r (rev _)) in K. apply same_lattice_app in K; [|apply rev_length]. cbn [order] in K. congruence.
  - intros Hp H4 HC'. clear HL HLD E. assert (Hcv : converts conv 8 8) by (intros v _ K; now destruct K).
    induction H2 as [|U D Us Ds (Hd & Ht & Hv) H2 IH]; [exists []; split; [easy|constructor]|].
    inversion HF as [|? ? HU HF']; subst. destruct (IH HF') as (Rs & E & HR).
    assert (HRv : forall c, in_lattice (build_size b) c -> in_lattice (build_size b) (rev c)).
    { intros c Hc. rewrite Hp. now apply in_lattice_rev. }
    destruct (C84_maintain e conv 8 8 b (HColMat 8) 18 (fun c => field_at b U (rev c)) D Z) as (V & EV & HV); try easy.
    + now left.
    + split; [congruence|]. split; [easy|]. intros c Hc. rewrite <- Hv by now apply HRv. now rewrite rev_involutive.
    + now right.
    + intros c Hc. apply HU. now apply HRv.
    + exists ([V] :: Rs). cbn [mapM]. cbn [Nat.eqb] in EV. rewrite EV. cbn [bind]. rewrite E. split; [easy|]. constructor; [|easy].
      exists V. split; [easy|]. intros c Hc. rewrite HV by easy. easy.
Qed.

(** A 3-d checkerboard build stores the sites of a node in another order. *)
Definition h5_demo : field := fun q i => [N.of_nat (16 * q + i); N.of_nat (200 - i)].
Theorem C84_cb3d_refuted : exists b F, build_ok b /\ build_kind b = CB3D /\ field_ok 4 2 b F /\
  cuts 4 (2 * 4 * local_sites b) (local_last b) /\
  match write_generic LittleE 4 b 4 2 F with Val D => ~ words_dset LittleE b 4 2 F D | _ => False end.
Proof.
  set (b := Single CB3D [2;2]). assert (Hb : build_ok b) by (apply adm1_case; reflexivity).
  exists b, h5_demo. split; [exact Hb|]. split; [reflexivity|]. split.
  { intros c Hc. destruct (lay_ok _ Hb) as (_ & _ & B & _). destruct (B c Hc) as [[Hq Hi] _].
    cbn in Hq, Hi. split; [reflexivity|]. unfold field_at, h5_demo. cbn [b lay_of scalar_layout l_node l_lin].
    change (2 ^ (8 * N.of_nat 4))%N with 4294967296%N. assert (Hi' : linearSiteIndex1 CB3D [2; 2] c < 4) by exact Hi.
    repeat constructor; lia. }
  split. { exists 0. split; [split; [vm_compute; discriminate|lia]|]. apply Nat.divide_1_l. }
  remember (write_generic LittleE 4 b 4 2 h5_demo) as R eqn:ER. vm_compute in ER. subst R. intros (_ & _ & Hv).
  specialize (Hv [1;0] 0 ltac:(repeat constructor) ltac:(lia)). vm_compute in Hv. discriminate.
Qed.

(** ** Cases *)
Lemma small_cuts u t d : (N.of_nat t * N.of_nat u <= 2147483648)%N -> cuts u t d.
Proof. intros H. exists 0. split; [split; [now rewrite Nat.div_1_r|lia]|]. apply Nat.divide_1_l. Qed.

Definition h5_conv (hs w : nat) (v : N) : N := (v * 3 mod 2 ^ (8 * N.of_nat w))%N.
Lemma h5_conv_ok hs w : converts h5_conv hs w.
Proof. intros v _ _. unfold fits, h5_conv. apply N.mod_lt, N.pow_nonzero. discriminate. Qed.
Lemma h5_demo_ok b : build_ok b -> l_nodes (lay_of b) <= 4 -> l_sites (lay_of b) <= 16 -> field_ok 4 2 b h5_demo.
Proof.
  intros Hb Hn Hs c Hc. destruct (lay_ok _ Hb) as (_ & _ & B & _). destruct (B c Hc) as [[Hq Hi] _]. cbn [fst snd] in Hq, Hi.
  split; [reflexivity|]. unfold field_at, h5_demo. change (2 ^ (8 * N.of_nat 4))%N with 4294967296%N. repeat constructor; lia.
Qed.

(** Four nodes write, one process reads in the other precision. *)
Example C84_case :
  let b := Multi false CB2 (lex_machine [2;2]) [8;4] in let b' := Single CB32 [8;4] in
  build_ok b /\ build_kind b <> CB3D /\ build_ok b' /\ build_kind b' <> CB3D /\ build_size b' = build_size b /\
  field_ok 4 2 b h5_demo /\ cuts 4 (2 * 4 * local_sites b) (local_last b) /\ cuts 4 (2 * local_sites b') (local_last b') /\
  converts h5_conv 4 8 /\
  match write_generic LittleE 4 b 4 2 h5_demo with
  | Val D => d_dims D = [4;8;2] /\ d_val D [3;5;0] = Some (mem LittleE 4 (nth 0 (field_at b h5_demo [5;3]) 0%N)) /\
      match read_generic LittleE h5_conv b' true 8 2 D (fun _ _ => []) with
      | Val [F'] => field_at b' F' [5;3] = map (h5_conv 4 8) (field_at b h5_demo [5;3])
      | _ => False
      end
  | _ => False
  end.
Proof.
  intros b b'. assert (Hb : build_ok b) by (apply admP_case; reflexivity).
  split; [exact Hb|]. split; [discriminate|]. split; [apply adm1_case; reflexivity|]. split; [discriminate|]. split; [reflexivity|].
  split; [apply h5_demo_ok; [exact Hb|vm_compute; lia|vm_compute; lia]|].
  split; [apply small_cuts; vm_compute; discriminate|]. split; [apply small_cuts; vm_compute; discriminate|]. split; [apply h5_conv_ok|].
  vm_compute. repeat split.
Qed.

(** Double-precision colour matrices on a four-dimensional lattice, and the order of readQlua. *)
Definition mat_demo (a : nat) : field := fun q i => map (fun j => N.of_nat (a + 100 * i + j)) (seq 0 18).
Lemma mat_demo_ok b a : build_ok b -> l_sites (lay_of b) <= 16 -> a <= 3000 -> field_ok 8 18 b (mat_demo a).
Proof.
  intros Hb Hs Ha c Hc. destruct (lay_ok _ Hb) as (_ & _ & B & _). destruct (B c Hc) as [[Hq Hi] _]. cbn [fst snd] in Hq, Hi.
  split; [reflexivity|]. unfold field_at, mat_demo. change (2 ^ (8 * N.of_nat 8))%N with 18446744073709551616%N.
  apply Forall_forall. intros x Hx. apply in_map_iff in Hx. destruct Hx as (j & <- & Hj). apply in_seq in Hj.
  set (l := l_lin (lay_of b) c) in *. apply N.le_lt_trans with (N.of_nat (3000 + 1600 + 18)); [lia|reflexivity].
Qed.
Example C84_qlua_case :
  let b := Single CB2 [2;1;1;2] in
  build_ok b /\ build_kind b <> CB3D /\ build_size b = rev (build_size b) /\ length (build_size b) = 4 /\
  Forall (field_ok 8 18 b) (map mat_demo [0;1000;2000;3000]) /\
  cuts 8 (144 * local_sites b) (local_last b) /\ cuts 8 (18 * local_sites b) (local_first b) /\
  match write_qlua LittleE 8 b (map mat_demo [0;1000;2000;3000]) with
  | Val Ds => match read_qlua LittleE h5_conv b Ds (fun _ _ => []) with
      | Val ([V0] :: _) => field_at b V0 [1;0;0;0] = field_at b (mat_demo 0) [0;0;0;1] /\
                           field_at b V0 [1;0;0;0] <> field_at b (mat_demo 0) [1;0;0;0]
      | _ => False
      end
  | _ => False
  end.
Proof.
  intros b. assert (Hb : build_ok b) by (apply adm1_case; reflexivity).
  split; [exact Hb|]. split; [discriminate|]. split; [reflexivity|]. split; [reflexivity|].
  split. { cbn [map]. assert (Hs : l_sites (lay_of b) <= 16) by (vm_compute; lia).
    constructor; [apply mat_demo_ok; try easy; lia|]. constructor; [apply mat_demo_ok; try easy; lia|].
    constructor; [apply mat_demo_ok; try easy; lia|]. constructor; [apply mat_demo_ok; try easy; lia|]. constructor. }
  split; [apply small_cuts; vm_compute; discriminate|]. split; [apply small_cuts; vm_compute; discriminate|].
  vm_compute. split; [reflexivity|discriminate].
Qed.

(** A colour matrix in double precision on 48x48x48x17 sites in one process: cut into two, 17 is odd. *)
Example C84_split_case :
  let b := Single LEXICO [48;48;48;17] in
  build_ok b /\ field_ok 8 18 b (fun _ _ => repeat 1%N 18) /\ halvings 8 (18 * 8 * local_sites b) 1 /\
  ~ Nat.divide (2 ^ 1) (local_last b) /\
  in_lattice (build_size b) [0;0;0;16] /\ last [0;0;0;16] 0 mod local_last b = local_last b - 1.
Proof.
  intros b. split; [apply adm1_case; reflexivity|].
  split. { intros c _. split; [reflexivity|]. unfold field_at. cbn [repeat]. repeat constructor. }
  assert (E : N.of_nat (18 * 8 * local_sites b) = 270729216%N).
  { unfold b. cbn [local_sites volume]. rewrite !Nat2N.inj_mul. reflexivity. }
  split. { split.
    - rewrite Nat2N.inj_div, E. vm_compute. discriminate.
    - intros [|j] Hj; [|lia]. rewrite Nat2N.inj_div, E. vm_compute. reflexivity. }
  split. { intros [z Hz]. cbn in Hz. lia. }
  split; [|reflexivity]. apply in_lattice_get. split; [reflexivity|]. intros i Hi. cbn in Hi.
  destruct i as [|[|[|[|]]]]; cbn; lia.
Qed.

(** LatticeReal, and other refused or lost datasets, in a small build. *)
Example C84_bad_case :
  let b := Single CB2 [4;2] in
  build_ok b /\ field_ok 4 1 b (fun _ i => [N.of_nat i]) /\
  (exists D, write_generic LittleE 4 b 4 1 (fun _ i => [N.of_nat i]) = Val D /\ d_dims D = [2;4] /\
     read_generic LittleE h5_conv b true 4 1 D (fun _ _ => []) = Abort) /\
  write_generic LittleE 8 b 4 1 (fun _ i => [N.of_nat i]) = Undef.
Proof.
  intros b. assert (Hb : build_ok b) by (apply adm1_case; reflexivity).
  split; [exact Hb|]. split.
  { intros c Hc. destruct (lay_ok _ Hb) as (_ & _ & B & _). destruct (B c Hc) as [[Hq Hi] _]. cbn [fst snd] in Hq, Hi.
    split; [reflexivity|]. unfold field_at. change (2 ^ (8 * N.of_nat 4))%N with 4294967296%N.
    assert (Hi' : l_lin (lay_of b) c < 8) by exact Hi. repeat constructor. lia. }
  split; [|vm_compute; reflexivity]. eexists. split; [vm_compute; reflexivity|]. split; reflexivity.
Qed.

(** Doubles in a build of floats: two fields that differ in the second half. *)
Example C84_double_case :
  let b := Single LEXICO [2] in let F1 := fun _ i => [N.of_nat i] in let F2 := fun _ i => [N.of_nat (5 * i)] in
  build_ok b /\ field_ok 8 1 b F1 /\ field_ok 8 1 b F2 /\
  cuts 4 (1 * 8 * local_sites b) (local_last b) /\ cuts 4 (2 * 1 * local_sites b) (local_last b) /\
  (forall s c, nth_error (all_sites [2]) s = Some c -> 2 * s < volume [2] -> field_at b F1 c = field_at b F2 c) /\
  in_lattice [2] [1] /\ field_at b F1 [1] <> field_at b F2 [1].
Proof.
  intros b F1 F2. split; [apply adm1_case; reflexivity|].
  assert (HB : forall x, in_lattice [2] x -> x = [0] \/ x = [1]).
  { intros x Hx. inversion Hx as [|a ? r ? Ha Hr]; subst. inversion Hr; subst. destruct a as [|[|a]]; [now left|now right|lia]. }
  split; [intros x Hx; destruct (HB x Hx) as [->| ->]; (split; [reflexivity|constructor; [reflexivity|constructor]])|].
  split; [intros x Hx; destruct (HB x Hx) as [->| ->]; (split; [reflexivity|constructor; [reflexivity|constructor]])|].
  split; [apply small_cuts; vm_compute; discriminate|]. split; [apply small_cuts; vm_compute; discriminate|].
  split. { intros [|s] c Hs Hv; [|cbn in Hv; lia]. cbn in Hs. injection Hs as <-. reflexivity. }
  split; [repeat constructor|]. vm_compute. discriminate.
Qed.

Print Assumptions C84_array_format.
Print Assumptions C84_format.
Print Assumptions C84_typed_format.
Print Assumptions C84_array_read.
Print Assumptions C84_read.
Print Assumptions C84_lattice.
Print Assumptions C84_array.
Print Assumptions C84_same_build.
Print Assumptions C84_typed_read.
Print Assumptions C84_typed.
Print Assumptions C84_colmats.
Print Assumptions C84_maintain.
Print Assumptions C84_other_lattice.
Print Assumptions C84_real_refuted.
Print Assumptions C84_small_refuted.
Print Assumptions C84_F3_refuted.
Print Assumptions C84_one_colmat_refuted.
Print Assumptions C84_split_refuted.
Print Assumptions C84_other_type_refuted.
Print Assumptions C84_float_refuted.
Print Assumptions C84_double_refuted.
Print Assumptions C84_qlua_refuted.
Print Assumptions C84_cb3d_refuted.

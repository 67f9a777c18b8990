(** C84: lattice objects in HDF5 files. *)
From Coq Require Import List Arith NArith Bool Lia.
From Verif Require Import Base LayoutModel LayoutSpec LayoutProofs LayoutOk LayoutCases CrcModel SwapProofs IoProofs LatIoModel LatIoSpec
  LatIoProofs LatIoOk IoNodeProofs Hdf5Model Hdf5Spec Hdf5Proofs Hdf5Blocks Hdf5Xfer Hdf5Read Hdf5Ok Hdf5Bad.
Import ListNotations.
Local Open Scope nat_scope.

Lemma tail2 n : 2 <= n -> tail n = [n].
Proof. intros H. unfold tail. destruct (Nat.ltb_spec 1 n); [easy|lia]. Qed.
Lemma word_chunk e w j ws : j < length ws -> chunk (w * j) w (image e w ws) = mem e w (nth j ws 0%N).
Proof.
  intros Hj. assert (E := image_chunk e w j 1 ws). rewrite Nat.mul_1_l, (Nat.mul_comm j) in E. rewrite E.
  assert (E1 : chunk j 1 ws = [nth j ws 0%N]).
  { unfold chunk. destruct (skipn j ws) as [|y r] eqn:Es.
    - assert (K : length (skipn j ws) = 0) by now rewrite Es. rewrite skipn_length in K. lia.
    - cbn. f_equal. rewrite <- (firstn_skipn j ws), Es, app_nth2; rewrite firstn_length; [|lia].
      replace (j - Nat.min j (length ws)) with 0 by lia. easy. }
  rewrite E1. unfold image. cbn. apply app_nil_r.
Qed.
Lemma nth_chunk {A} (d : A) n j : j < n -> forall p l, nth j (chunk p n l) d = nth (p + j) l d.
Proof.
  intros Hj p. unfold chunk. induction p as [|p IH]; intros l; cbn [skipn Nat.add].
  - revert n Hj l. induction j as [|j IHj]; intros [|n] Hj [|x l]; cbn; try lia; try easy. apply IHj. lia.
  - destruct l as [|x l]; [rewrite firstn_nil; now destruct j|]. cbn [nth]. apply IH.
Qed.
Lemma nth_words b n Fs c a j F : (forall G, In G Fs -> length (field_at b G c) = n) -> nth_error Fs a = Some F -> j < n ->
  nth (n * a + j) (words_at b Fs c) 0%N = nth j (field_at b F c) 0%N.
Proof.
  intros H HF Hj. unfold words_at.
  assert (E : chunk (a * n) n (concat (map (fun F => field_at b F c) Fs)) = field_at b F c).
  { apply chunk_concat; [|now rewrite nth_error_map, HF].
    intros x Hx. apply in_map_iff in Hx. destruct Hx as (G & <- & HG). now apply H. }
  rewrite <- E. rewrite nth_chunk by easy. f_equal. lia.
Qed.

(** ** What a dataset contains *)

(** An array of fields of n words per site, written by a build whose floats have the size of the words:
    the dataset has the extents of the lattice in reverse order and the words of all fields at a site. *)
Theorem C84_array_format : forall e w b n Fs, build_ok b -> build_kind b <> CB3D -> 0 < w -> 0 < n -> 2 <= n * length Fs ->
  Forall (field_ok w n b) Fs -> cuts w (n * length Fs * w * local_sites b) (local_last b) ->
  exists D, write_generics e w b w n Fs = Val D /\ words_dsets e b w n Fs D.
Proof.
  intros e w b n Fs Hb Hk Hw Hn H2 HF HC. unfold write_generics. rewrite Nat.div_mul by lia.
  rewrite (Nat.mul_comm w n).
  destruct (write_fields_at e w b (HFloat w) (n * length Fs) w n Fs Hb Hk) as (D & E & Hd & Ht & Hv); try easy.
  - lia.
  - cbn. ring.
  - cbn [h5size]. now replace (w * (n * length Fs) * local_sites b) with (n * length Fs * w * local_sites b) by ring.
  - exists D. split; [exact E|]. rewrite tail2 in * by easy. split; [easy|]. split; [easy|].
    intros c a j F Hc Ha Hj. assert (HA : a < length Fs) by (apply nth_error_Some; congruence).
    assert (Hi : n * a + j < n * length Fs) by nia.
    rewrite Hv; [|easy|repeat constructor; easy]. f_equal. cbn [h5size row_num volume].
    rewrite Nat.mul_1_r, Nat.add_0_r. rewrite word_chunk.
    + f_equal. apply nth_words; [|easy|easy]. intros G HG. rewrite Forall_forall in HF. now apply (HF G HG c).
    + destruct (words_at_facts w n b Fs c HF Hc) as [-> _]. lia.
Qed.

(** A single field. *)
Theorem C84_format : forall e w b n F, build_ok b -> build_kind b <> CB3D -> 0 < w -> 2 <= n ->
  field_ok w n b F -> cuts w (n * w * local_sites b) (local_last b) ->
  exists D, write_generic e w b w n F = Val D /\ words_dset e b w n F D.
Proof.
  intros e w b n F Hb Hk Hw H2 HF HC. destruct (C84_array_format e w b n [F] Hb Hk Hw) as (D & E & Hd & Ht & Hv).
  - lia.
  - cbn. lia.
  - (constructor; [exact HF|constructor]).
  - cbn [length]. now rewrite Nat.mul_1_r.
  - exists D. cbn [length] in *. rewrite Nat.mul_1_r in *. split; [|split; [easy|split; [easy|]]].
    + unfold write_generics in E. cbn [length] in E. rewrite Nat.mul_1_r in E. exact E.
    + intros c j Hc Hj. assert (K := Hv c 0 j F Hc eq_refl Hj). rewrite Nat.mul_0_r in K. exact K.
Qed.

(** Colour matrices and propagators: one compound element per site. *)
Theorem C84_typed_format : forall e real w b F ty n, build_ok b -> build_kind b <> CB3D ->
  (ty = HColMat w /\ n = 18) \/ (ty = HProp w /\ n = 288) ->
  field_ok w n b F -> cuts real (n * w * local_sites b) (local_last b) ->
  exists D, (if n =? 18 then write_colmat e real b w F else write_prop e real b w F) = Val D /\ typed_dset e b ty w F D.
Proof.
  intros e real w b F ty n Hb Hk Hty HF HC.
  assert (G : exists D, write_nodes real b ty 1 (to_host e b w (n * w) [F]) = Val D /\ typed_dset e b ty w F D).
  { assert (Hsz : h5size ty = n * w) by (destruct Hty as [[-> ->]|[-> ->]]; easy).
    destruct (write_fields_at e real b ty 1 w n [F] Hb Hk) as (D & E & Hd & Ht & Hv).
    - lia.
    - rewrite Hsz. cbn. lia.
    - (constructor; [exact HF|constructor]).
    - rewrite Hsz, Nat.mul_1_r. easy.
    - exists D. split; [exact E|]. split; [rewrite Hd; apply app_nil_r|]. split; [easy|]. intros c Hc.
      assert (K := Hv c [] Hc ltac:(constructor)). rewrite app_nil_r in K. rewrite K. f_equal.
      cbn [row_num tail Nat.ltb Nat.leb]. rewrite Nat.mul_0_r, Hsz. unfold words_at. cbn [map concat]. rewrite app_nil_r.
      apply site_image. now apply HF. }
  destruct Hty as [[-> ->]|[-> ->]]; exact G.
Qed.

(** ** Reading *)
Lemma dsets_val e b w n Fs D : words_dsets e b w n Fs D -> 0 < n -> 2 <= n * length Fs -> Forall (field_ok w n b) Fs ->
  forall c j, in_lattice (build_size b) c -> in_lattice (tail (n * length Fs)) j ->
    d_val D (rev c ++ j) = Some (chunk (w * row_num (tail (n * length Fs)) j) w (image e w (words_at b Fs c))).
Proof.
  intros (Hd & Ht & Hv) Hn H2 HF c j Hc Hj. rewrite tail2 in * by easy. inversion Hj as [|x ? j' ? Hx Hl]; subst. inversion Hl; subst.
  cbn [row_num volume]. rewrite Nat.mul_1_r, Nat.add_0_r.
  assert (HM := Nat.div_mod x n ltac:(lia)). assert (HB := Nat.mod_upper_bound x n ltac:(lia)).
  assert (HA : x / n < length Fs) by (apply Nat.div_lt_upper_bound; lia).
  destruct (nth_error_lt Fs (x / n) HA) as [F EF]. rewrite word_chunk.
  - rewrite HM at 1. rewrite (Hv c (x / n) (x mod n) F Hc EF HB). f_equal. f_equal. rewrite HM at 2. symmetry. apply nth_words; [|easy|easy].
    intros G HG. rewrite Forall_forall in HF. now apply (HF G HG c).
  - destruct (words_at_facts w n b Fs c HF Hc) as [-> _]. lia.
Qed.

(** Such a dataset read by any build of the same lattice, with words of the same or the other precision, gives
    the values at every site. *)
Theorem C84_array_read : forall e conv hs w b b' n Fs D Z, words_dsets e b hs n Fs D ->
  build_ok b' -> build_kind b' <> CB3D -> build_size b' = build_size b -> hs = 4 \/ hs = 8 -> 0 < w -> converts conv hs w ->
  0 < n -> 2 <= n * length Fs -> Forall (field_ok hs n b) Fs -> cuts hs (n * length Fs * local_sites b') (local_last b') ->
  exists Fs', read_generics e conv b' true w n D Z = Val Fs' /\ length Fs' = length Fs /\
    forall a F F' c, nth_error Fs a = Some F -> nth_error Fs' a = Some F' -> in_lattice (build_size b) c ->
      field_at b' F' c = in_precision conv hs w (field_at b F c).
Proof.
  intros e conv hs w b b' n Fs D Z HD Hb Hk HS Hhs Hw Hcv Hn H2 HF HC.
  assert (HV := dsets_val e b hs n Fs D HD Hn H2 HF). destruct HD as (Hd & Ht & _).
  assert (HL : 0 < length Fs) by nia.
  unfold read_generics. rewrite Ht. cbn [h5size]. fold (build_size b'). rewrite HS.
  replace ((hs =? 4) || (hs =? 8)) with true by (destruct Hhs; subst; easy). cbn [negb].
  rewrite Hd, app_length, rev_length. cbn [length]. rewrite Nat.eqb_refl. cbn [negb].
  assert (ES : same_lattice true b' (rev (build_size b) ++ [n * length Fs]) = true).
  { apply same_lattice_app; [now rewrite rev_length, HS|]. cbn [order]. now rewrite HS. }
  rewrite ES. cbn [negb].
  replace (get (rev (build_size b) ++ [n * length Fs]) (length (build_size b))) with (n * length Fs).
  2:{ unfold get. rewrite app_nth2; rewrite rev_length; [|lia]. now rewrite Nat.sub_diag. }
  replace (n * length Fs * w / (n * w)) with (length Fs).
  2:{ replace (n * length Fs * w) with (length Fs * (n * w)) by ring. rewrite Nat.div_mul; [easy|nia]. }
  replace (length Fs =? 0) with false by (symmetry; apply Nat.eqb_neq; lia).
  rewrite Nat.div_mul by lia.
  destruct (read_fields e conv b' true hs w n 1 (n * length Fs) D (words_at b Fs) (repeat Z (length Fs))) as (Fs' & E & HL' & Hr); try easy.
  - lia.
  - now left.
  - cbn [order]. rewrite HS, tail2 by easy. exact Hd.
  - rewrite Ht. cbn. lia.
  - now rewrite Nat.mul_1_l.
  - rewrite repeat_length. lia.
  - rewrite HS. intros c Hc. destruct (words_at_facts hs n b Fs c HF Hc) as [HA HB]. split; [lia|easy].
  - rewrite HS, Ht. cbn [h5size order]. exact HV.
  - rewrite repeat_length in HL'. exists Fs'. rewrite Nat.mul_1_l in E. split; [exact E|]. split; [easy|].
    intros a F F' c HFa HFa' Hc. rewrite (Hr a F' c HFa') by now rewrite HS. f_equal. apply chunk_concat.
    + intros x Hx. apply in_map_iff in Hx. destruct Hx as (G & <- & HG). rewrite Forall_forall in HF. now apply (HF G HG c).
    + now rewrite nth_error_map, HFa.
Qed.

Theorem C84_read : forall e conv hs w b b' n F D G, words_dset e b hs n F D ->
  build_ok b' -> build_kind b' <> CB3D -> build_size b' = build_size b -> hs = 4 \/ hs = 8 -> converts conv hs w ->
  2 <= n -> field_ok hs n b F -> cuts hs (n * local_sites b') (local_last b') ->
  exists F', read_generic e conv b' true w n D G = Val [F'] /\
    forall c, in_lattice (build_size b) c -> field_at b' F' c = in_precision conv hs w (field_at b F c).
Proof.
  intros e conv hs w b b' n F D G (Hd & Ht & Hv) Hb Hk HS Hhs Hcv H2 HF HC.
  assert (HD : words_dsets e b hs n [F] D).
  { split; [|split; [easy|]]; [now cbn [length]; rewrite Nat.mul_1_r|]. intros c [|a] j F0 Hc Ha Hj; cbn in Ha; [|now destruct a].
    injection Ha as <-. rewrite Nat.mul_0_r. now apply Hv. }
  assert (HFs : Forall (field_ok hs n b) [F]) by (constructor; [exact HF|constructor]).
  assert (HV := dsets_val e b hs n [F] D HD ltac:(lia) ltac:(cbn; lia) HFs). cbn [length] in HV. rewrite Nat.mul_1_r in HV.
  unfold read_generic. rewrite Ht. cbn [h5size]. fold (build_size b'). rewrite HS.
  replace ((hs =? 4) || (hs =? 8)) with true by (destruct Hhs; subst; easy). cbn [negb].
  rewrite Hd, app_length, rev_length. cbn [length]. rewrite Nat.eqb_refl. cbn [negb].
  assert (ES : same_lattice true b' (rev (build_size b) ++ [n]) = true).
  { apply same_lattice_app; [now rewrite rev_length, HS|]. cbn [order]. now rewrite HS. }
  rewrite ES. cbn [negb].
  replace (get (rev (build_size b) ++ [n]) (length (build_size b))) with n.
  2:{ unfold get. rewrite app_nth2; rewrite rev_length; [|lia]. now rewrite Nat.sub_diag. }
  destruct (read_fields e conv b' true hs w n 1 n D (words_at b [F]) [G]) as (Fs' & E & HL' & Hr); try easy.
  - lia.
  - now left.
  - cbn [order]. rewrite HS, tail2 by easy. exact Hd.
  - rewrite Ht. cbn. lia.
  - now rewrite Nat.mul_1_l.
  - rewrite HS. intros c Hc. destruct (words_at_facts hs n b [F] c HFs Hc) as [HA HB]. cbn [length] in HA. split; [lia|easy].
  - rewrite HS, Ht. cbn [h5size order]. exact HV.
  - rewrite Nat.mul_1_l in E. destruct Fs' as [|F' [|]]; cbn in HL'; try lia. exists F'. split; [exact E|]. intros c Hc.
    rewrite (Hr 0 F' c eq_refl) by now rewrite HS. f_equal. unfold words_at. cbn [map concat]. rewrite app_nil_r. cbn [Nat.mul].
    unfold chunk. cbn [skipn]. apply firstn_all2. destruct (HF c Hc) as [-> _]. lia.
Qed.

(** Written by one build and read by another. *)
Theorem C84_lattice : forall e conv w w' b b' n F G, build_ok b -> build_kind b <> CB3D ->
  build_ok b' -> build_kind b' <> CB3D -> build_size b' = build_size b -> w = 4 \/ w = 8 -> converts conv w w' ->
  2 <= n -> field_ok w n b F ->
  cuts w (n * w * local_sites b) (local_last b) -> cuts w (n * local_sites b') (local_last b') ->
  exists D F', write_generic e w b w n F = Val D /\ read_generic e conv b' true w' n D G = Val [F'] /\
    forall c, in_lattice (build_size b) c -> field_at b' F' c = in_precision conv w w' (field_at b F c).
Proof.
  intros e conv w w' b b' n F G Hb Hk Hb' Hk' HS Hw Hcv H2 HF HC HC'.
  destruct (C84_format e w b n F Hb Hk) as (D & E & HD); try easy; [lia|].
  destruct (C84_read e conv w w' b b' n F D G HD) as (F' & E' & Hr); try easy. exists D, F'. easy.
Qed.

Theorem C84_array : forall e conv w w' b b' n Fs Z, build_ok b -> build_kind b <> CB3D ->
  build_ok b' -> build_kind b' <> CB3D -> build_size b' = build_size b -> w = 4 \/ w = 8 -> 0 < w' -> converts conv w w' ->
  0 < n -> 2 <= n * length Fs -> Forall (field_ok w n b) Fs ->
  cuts w (n * length Fs * w * local_sites b) (local_last b) -> cuts w (n * length Fs * local_sites b') (local_last b') ->
  exists D Fs', write_generics e w b w n Fs = Val D /\ read_generics e conv b' true w' n D Z = Val Fs' /\
    length Fs' = length Fs /\
    forall a F F' c, nth_error Fs a = Some F -> nth_error Fs' a = Some F' -> in_lattice (build_size b) c ->
      field_at b' F' c = in_precision conv w w' (field_at b F c).
Proof.
  intros e conv w w' b b' n Fs Z Hb Hk Hb' Hk' HS Hw Hw' Hcv Hn H2 HF HC HC'.
  destruct (C84_array_format e w b n Fs Hb Hk) as (D & E & HD); try easy; [lia|].
  destruct (C84_array_read e conv w w' b b' n Fs D Z HD) as (Fs' & E' & Hr); try easy. exists D, Fs'. easy.
Qed.

(** By the same build, whatever its layout. *)
Theorem C84_same_build : forall e conv w w' b n F G, build_ok b -> w = 4 \/ w = 8 -> converts conv w w' ->
  2 <= n -> field_ok w n b F ->
  cuts w (n * w * local_sites b) (local_last b) -> cuts w (n * local_sites b) (local_last b) ->
  exists D F', write_generic e w b w n F = Val D /\ read_generic e conv b true w' n D G = Val [F'] /\
    forall c, in_lattice (build_size b) c -> field_at b F' c = in_precision conv w w' (field_at b F c).
Proof.
  intros e conv w w' b n F G Hb Hw Hcv H2 HF HC HC'.
  destruct (same_build e conv w b (HFloat w) n w' n w [F] [G]) as (D & E & Hd & Ht & Fs' & E' & HL & Hr); try easy.
  - lia.
  - cbn. ring.
  - (constructor; [exact HF|constructor]).
  - cbn [h5size]. now rewrite (Nat.mul_comm w n).
  - cbn [length]. now rewrite Nat.mul_1_l.
  - cbn [length] in *. destruct Fs' as [|F' [|]]; cbn in HL; try lia. exists D, F'. split.
    { unfold write_generic. rewrite Nat.div_mul by lia. now rewrite (Nat.mul_comm w n). }
    split; [|intros c Hc; now apply (Hr 0)].
    unfold read_generic. rewrite Ht. cbn [h5size]. fold (build_size b).
    replace ((w =? 4) || (w =? 8)) with true by (destruct Hw; subst; easy). cbn [negb].
    rewrite Hd, tail2, app_length, rev_length by easy. cbn [length]. rewrite Nat.eqb_refl. cbn [negb].
    assert (ES : same_lattice true b (rev (build_size b) ++ [n]) = true) by (apply same_lattice_app; [apply rev_length|easy]).
    rewrite ES. cbn [negb].
    replace (get (rev (build_size b) ++ [n]) (length (build_size b))) with n.
    2:{ unfold get. rewrite app_nth2; rewrite rev_length; [|lia]. now rewrite Nat.sub_diag. }
    rewrite Nat.mul_1_l in E'. exact E'.
Qed.

(** Colour matrices and propagators, of either precision. *)
Lemma typed_read e conv hs w b b' inv ty n D G (v : list nat -> elem) : build_ok b' -> build_kind b' <> CB3D ->
  build_size b' = b -> hs = 4 \/ hs = 8 -> converts conv hs w -> d_dims D = order inv b -> d_ty D = ty -> h5size ty = n * hs ->
  (inv = true \/ length b = 4) -> cuts hs (n * local_sites b') (if inv then local_last b' else local_first b') ->
  (forall c, in_lattice b c -> site_ok hs n (v c) /\ d_val D (order inv c) = Some (image e hs (v c))) ->
  (length (d_dims D) =? length (l_size (lay_of b'))) = true /\ same_lattice inv b' (d_dims D) = true /\
  exists F', read_nodes e conv b' inv hs w n 1 (vol (sub_size b') * n) D [G] = Val [F'] /\
    forall c, in_lattice b c -> field_at b' F' c = in_precision conv hs w (v c).
Proof.
  intros Hb Hk HS Hhs Hcv Hd Ht Hsz Hinv HC HV.
  split. { apply Nat.eqb_eq. rewrite Hd, order_length. now fold (build_size b'); rewrite HS. }
  split. { rewrite Hd, <- (app_nil_r (order inv b)). apply same_lattice_app; [now rewrite order_length, HS|now rewrite HS]. }
  destruct (read_fields e conv b' inv hs w n n 1 D v [G]) as (Fs' & E & HL & Hr); try easy.
  - lia.
  - now rewrite HS.
  - cbn [tail Nat.ltb Nat.leb]. now rewrite app_nil_r, HS.
  - now rewrite Ht.
  - now rewrite Nat.mul_1_r.
  - cbn. lia.
  - rewrite HS. intros c Hc. destruct (HV c Hc) as [[H1 H2] _]. split; [lia|easy].
  - rewrite HS. intros c j Hc Hj. inversion Hj; subst. rewrite app_nil_r. destruct (HV c Hc) as [[H1 H2] ->].
    f_equal. cbn [row_num tail Nat.ltb Nat.leb]. rewrite Nat.mul_0_r, Hsz. symmetry. now apply site_image.
  - destruct Fs' as [|F' [|]]; cbn in HL; try lia. exists F'. split.
    + rewrite <- E. f_equal. lia.
    + intros c Hc. rewrite (Hr 0 F' c eq_refl) by now rewrite HS. f_equal. cbn [Nat.mul]. unfold chunk. cbn [skipn]. apply firstn_all2.
      destruct (HV c Hc) as [[-> _] _]. lia.
Qed.

Theorem C84_typed_read : forall e conv hs w b b' ty n F D G,
  (ty = HColMat hs /\ n = 18 /\ w = 8) \/ (ty = HProp hs /\ n = 288) ->
  typed_dset e b ty hs F D -> build_ok b' -> build_kind b' <> CB3D -> build_size b' = build_size b ->
  hs = 4 \/ hs = 8 -> converts conv hs w -> field_ok hs n b F -> cuts hs (n * local_sites b') (local_last b') ->
  exists F', (if n =? 18 then read_colmat e conv b' true D G else read_prop e conv b' true w D G) = Val [F'] /\
    forall c, in_lattice (build_size b) c -> field_at b' F' c = in_precision conv hs w (field_at b F c).
Proof.
  intros e conv hs w b b' ty n F D G Hty (Hd & Ht & Hv) Hb Hk HS Hhs Hcv HF HC.
  assert (Hsz : h5size ty = n * hs) by (destruct Hty as [(-> & -> & _)|(-> & ->)]; easy).
  destruct (typed_read e conv hs w (build_size b) b' true ty n D G (field_at b F)) as (H1 & H2 & F' & E & Hr); try easy; [now left| |].
  { intros c Hc. split; [now apply HF|now apply Hv]. }
  exists F'. split; [|easy]. destruct Hty as [(-> & -> & ->)|(-> & ->)]; cbn [Nat.eqb].
  - unfold read_colmat. rewrite Ht, H1, H2. exact E.
  - unfold read_prop. rewrite Ht, H1, H2. exact E.
Qed.

(** Written and read: colour matrices in double precision, propagators in both. *)
Theorem C84_typed : forall e conv real w b b' n F G, n = 18 /\ w = 8 \/ n = 288 /\ (w = 4 \/ w = 8) ->
  build_ok b -> build_kind b <> CB3D -> build_ok b' -> build_kind b' <> CB3D -> build_size b' = build_size b ->
  field_ok w n b F -> cuts real (n * w * local_sites b) (local_last b) -> cuts w (n * local_sites b') (local_last b') ->
  exists D F', (if n =? 18 then write_colmat e real b w F else write_prop e real b w F) = Val D /\
    (if n =? 18 then read_colmat e conv b' true D G else read_prop e conv b' true w D G) = Val [F'] /\
    forall c, in_lattice (build_size b) c -> field_at b' F' c = field_at b F c.
Proof.
  intros e conv real w b b' n F G Hn Hb Hk Hb' Hk' HS HF HC HC'.
  set (ty := if n =? 18 then HColMat w else HProp w).
  assert (Hcv : converts conv w w) by (intros v _ H; now destruct H).
  destruct (C84_typed_format e real w b F ty n) as (D & E & HD); try easy.
  { unfold ty. destruct Hn as [[-> ->]|[-> _]]; cbn; [now left|now right]. }
  destruct (C84_typed_read e conv w w b b' ty n F D G) as (F' & E' & Hr); try easy.
  { unfold ty. destruct Hn as [[-> ->]|[-> _]]; cbn; [now left|now right]. }
  { destruct Hn as [[_ ->]|[_ H]]; [now right|easy]. }
  exists D, F'. split; [exact E|]. split; [exact E'|]. intros c Hc. rewrite Hr by easy. unfold in_precision. now rewrite Nat.eqb_refl.
Qed.

(** Arrays of two or more colour matrices. *)
Theorem C84_colmats : forall e conv real b b' Fs Z, build_ok b -> build_kind b <> CB3D ->
  build_ok b' -> build_kind b' <> CB3D -> build_size b' = build_size b -> 2 <= length Fs -> Forall (field_ok 8 18 b) Fs ->
  cuts real (144 * length Fs * local_sites b) (local_last b) -> cuts 8 (18 * length Fs * local_sites b') (local_last b') ->
  exists D Fs', write_colmats e real b Fs = Val D /\ read_colmats e conv b' true D Z = Val Fs' /\ length Fs' = length Fs /\
    forall a F F' c, nth_error Fs a = Some F -> nth_error Fs' a = Some F' -> in_lattice (build_size b) c ->
      field_at b' F' c = field_at b F c.
Proof.
  intros e conv real b b' Fs Z Hb Hk Hb' Hk' HS H2 HF HC HC'.
  destruct (write_fields_at e real b (HColMat 8) (length Fs) 8 18 Fs Hb Hk) as (D & E & Hd & Ht & Hv); try easy.
  - lia.
  - cbn [h5size]. lia.
  - exists D. unfold read_colmats. rewrite Ht. fold (build_size b'). rewrite HS, Hd, tail2, app_length, rev_length by easy. cbn [length].
    replace (length (build_size b) + 1 <=? length (build_size b)) with false by (symmetry; apply Nat.leb_gt; lia).
    rewrite Nat.eqb_refl. cbn [negb].
    assert (ES : same_lattice true b' (rev (build_size b) ++ [length Fs]) = true).
    { apply same_lattice_app; [now rewrite rev_length, HS|]. cbn [order]. now rewrite HS. }
    rewrite ES. cbn [negb].
    replace (get (rev (build_size b) ++ [length Fs]) (length (build_size b))) with (length Fs).
    2:{ unfold get. rewrite app_nth2; rewrite rev_length; [|lia]. now rewrite Nat.sub_diag. }
    assert (Hcv : converts conv 8 8) by (intros v _ H; now destruct H).
    destruct (read_fields e conv b' true 8 8 18 18 (length Fs) D (words_at b Fs) (repeat Z (length Fs))) as (Fs' & E' & HL' & Hr); try easy.
    + lia.
    + now right.
    + now left.
    + cbn [order]. now rewrite HS.
    + rewrite Ht. cbn [h5size]. lia.
    + rewrite repeat_length. lia.
    + rewrite HS. intros c Hc. destruct (words_at_facts 8 18 b Fs c HF Hc) as [HA HB]. split; [lia|easy].
    + rewrite HS, Ht. cbn [order]. exact Hv.
    + rewrite repeat_length in HL'. exists Fs'. split; [exact E|]. split; [rewrite <- E'; f_equal; lia|]. split; [easy|].
      intros a F F' c HFa HFa' Hc. rewrite (Hr a F' c HFa') by now rewrite HS. unfold in_precision. rewrite Nat.eqb_refl.
      apply chunk_concat.
      * intros x Hx. apply in_map_iff in Hx. destruct Hx as (G & <- & HG). rewrite Forall_forall in HF. now apply (HF G HG c).
      * now rewrite nth_error_map, HFa.
Qed.

(** A dataset with the coordinates in the order of the file, on a four-dimensional lattice. *)
Theorem C84_maintain : forall e conv hs w b ty n v D G, length (build_size b) = 4 ->
  (ty = HColMat hs /\ n = 18 /\ w = 8) \/ (ty = HProp hs /\ n = 288) ->
  plain_dset e (build_size b) ty hs v D -> build_ok b -> build_kind b <> CB3D ->
  hs = 4 \/ hs = 8 -> converts conv hs w -> (forall c, in_lattice (build_size b) c -> site_ok hs n (v c)) ->
  cuts hs (n * local_sites b) (local_first b) ->
  exists F', (if n =? 18 then read_colmat e conv b false D G else read_prop e conv b false w D G) = Val [F'] /\
    forall c, in_lattice (build_size b) c -> field_at b F' c = in_precision conv hs w (v c).
Proof.
  intros e conv hs w b ty n v D G H4 Hty (Hd & Ht & Hv) Hb Hk Hhs Hcv HF HC.
  assert (Hsz : h5size ty = n * hs) by (destruct Hty as [(-> & -> & _)|(-> & ->)]; easy).
  destruct (typed_read e conv hs w (build_size b) b false ty n D G v) as (H1 & H2 & F' & E & Hr); try easy; [now right| |].
  { intros c Hc. split; [now apply HF|now apply Hv]. }
  exists F'. split; [|easy]. destruct Hty as [(-> & -> & ->)|(-> & ->)]; cbn [Nat.eqb].
  - unfold read_colmat. rewrite Ht, H1, H2. exact E.
  - unfold read_prop. rewrite Ht, H1, H2. exact E.
Qed.

(** A dataset of another lattice is refused. *)
Theorem C84_other_lattice : forall e conv b w n D G L m, d_dims D = rev L ++ [m] -> L <> build_size b ->
  read_generic e conv b true w n D G = Abort /\ read_generics e conv b true w n D G = Abort.
Proof.
  intros e conv b w n D G L m Hd HL. unfold read_generic, read_generics. fold (build_size b). rewrite Hd, app_length, rev_length. cbn [length].
  destruct ((h5size (d_ty D) =? 4) || (h5size (d_ty D) =? 8)); cbn [negb]; [|easy].
  destruct (Nat.eqb_spec (length L + 1) (length (build_size b) + 1)) as [EL|]; cbn [negb]; [|easy].
  replace (same_lattice true b (rev L ++ [m])) with false; [easy|].
  symmetry. apply not_true_iff_false. intros E. apply same_lattice_app in E; [|rewrite rev_length; lia].
  cbn [order] in E. apply HL. rewrite <- (rev_involutive L), E. apply rev_involutive.
Qed.

(** Proofs about the model of HDF5 lattice datasets: fields written and read. *)
From Coq Require Import List Arith NArith Bool Lia Permutation.
From Verif Require Import Base LayoutModel LayoutSpec LayoutProofs LayoutOk CrcModel SwapProofs IoProofs LatIoModel LatIoSpec
  LatIoProofs LatIoOk IoNodeProofs Hdf5Model Hdf5Spec Hdf5Proofs Hdf5Blocks Hdf5Xfer Hdf5Read.
Import ListNotations.
Local Open Scope nat_scope.

(** ** The quantities of the specification *)
Lemma volume_mul A : forall B C, length B = length A -> length C = length A ->
  (forall i, i < length A -> get A i = get B i * get C i) -> volume A = volume B * volume C.
Proof.
  induction A as [|a A IH]; intros [|b B] [|c C] HB HC H; cbn in HB, HC; try lia; [easy|]. cbn [volume].
  rewrite (IH B C) by (try lia; intros i Hi; apply (H (S i)); cbn; lia).
  assert (E := H 0 ltac:(cbn; lia)). cbn in E. rewrite E. ring.
Qed.

Lemma nodes_pos b : build_ok b -> 0 < l_nodes (lay_of b).
Proof.
  intros Hb. destruct (size_ok b Hb) as [H0 HP]. set (c := repeat 0 (length (build_size b))).
  assert (Hc : in_lattice (build_size b) c).
  { apply in_lattice_get. unfold c. rewrite repeat_length. split; [easy|]. intros i Hi. unfold get. rewrite nth_repeat. now apply HP. }
  destruct (local_of b c Hb Hc) as [H _]. lia.
Qed.

Lemma local_facts b : build_ok b -> local_sites b = volume (sub_size b) /\ local_last b = last (sub_size b) 0 /\
  local_first b = get (sub_size b) 0.
Proof.
  intros Hb. destruct b as [k L|g k M L]; [easy|]. assert (Hq := nodes_pos _ Hb).
  assert (Hadm := Hb). destruct Hadm as (_ & H0 & HL & _ & [HG HM] & HE & HD).
  destruct (multi_facts k M L 0 Hb) as (H1 & _ & H3); [exact Hq|]. cbn [local_sites local_last local_first sub_size].
  assert (HGi : forall i, i < length L -> 0 < get (mgrid M) i) by (intros i Hi; apply HG; lia).
  split; [|split].
  - rewrite (volume_mul L (mgrid M) (subgrid M L)) by (try lia; intros i Hi; now apply H3).
    assert (0 < volume (mgrid M)) by now apply volume_pos. rewrite Nat.mul_comm, Nat.div_mul by lia. easy.
  - rewrite <- (get_last L), <- (get_last (mgrid M)), <- (get_last (subgrid M L)) by lia.
    rewrite H1. replace (length (mgrid M)) with (length L) by lia.
    destruct (H3 (length L - 1) ltac:(lia)) as (_ & _ & ->). assert (G := HGi (length L - 1) ltac:(lia)).
    rewrite Nat.mul_comm, Nat.div_mul by lia. easy.
  - destruct (H3 0 ltac:(lia)) as (_ & _ & ->). assert (G := HGi 0 ltac:(lia)).
    rewrite Nat.mul_comm, Nat.div_mul by lia. easy.
Qed.

(** ** Writing fields *)
Definition words_at (b : build) (Fs : list field) (c : list nat) : elem := concat (map (fun F => field_at b F c) Fs).

Lemma words_at_facts w n b Fs c : Forall (field_ok w n b) Fs -> in_lattice (build_size b) c ->
  length (words_at b Fs c) = length Fs * n /\ Forall (fits w) (words_at b Fs c).
Proof.
  intros HF Hc. unfold words_at. rewrite Forall_forall in HF.
  assert (HS : forall F, In F Fs -> site_ok w n (field_at b F c)) by (intros F Hi; now apply HF).
  split.
  - rewrite (concat_length_eq n); [rewrite map_length; lia|]. intros l Hl. apply in_map_iff in Hl. destruct Hl as (F & <- & Hi). now apply HS.
  - apply Forall_concat'. intros l Hl. apply in_map_iff in Hl. destruct Hl as (F & <- & Hi). now apply HS.
Qed.

Lemma site_image e w n ws : length ws = n -> chunk 0 (n * w) (image e w ws) = image e w ws.
Proof. intros <-. unfold chunk. cbn [skipn]. apply firstn_all2. rewrite image_length. lia. Qed.

Lemma to_host_eq e b w n Fs q : build_ok b -> q < l_nodes (lay_of b) -> Forall (field_ok w n b) Fs ->
  to_host e b w (n * w) Fs q = concat (map (fun c => image e w (words_at b Fs c)) (visited b q)).
Proof.
  intros Hb Hq HF. unfold to_host. rewrite reordermap_visited, map_map by easy. f_equal. apply map_ext_in. intros c Hc.
  apply visited_facts in Hc; [|easy|easy]. destruct Hc as [Hc Hn].
  unfold words_at. rewrite image_concat, map_map. f_equal. apply map_ext_in. intros F HI.
  rewrite Forall_forall in HF. destruct (HF F HI c Hc) as [HL _]. unfold field_at in *. rewrite Hn in *. now apply site_image.
Qed.

Lemma write_fields e real b ty obj w n Fs : build_ok b -> 0 < obj -> h5size ty * obj = length Fs * n * w ->
  Forall (field_ok w n b) Fs -> cuts real (h5size ty * obj * local_sites b) (local_last b) ->
  exists D, write_nodes real b ty obj (to_host e b w (n * w) Fs) = Val D /\ d_dims D = rev (build_size b) ++ tail obj /\ d_ty D = ty /\
    forall q run l c j, q < l_nodes (lay_of b) -> nth_error (all_sites (sub_size b)) run = Some l ->
      nth_error (visited b q) run = Some c -> in_lattice (tail obj) j ->
      d_val D (rev (shift (origin b q) l) ++ j) = Some (chunk (h5size ty * row_num (tail obj) j) (h5size ty) (image e w (words_at b Fs c))).
Proof.
  intros Hb Ho Hsz HF (k & HK & HD). destruct (local_facts b Hb) as (E1 & E2 & _). rewrite E1 in HK. rewrite E2 in HD.
  assert (HLen : forall q x, q < l_nodes (lay_of b) ->
    In x (map (fun c => image e w (words_at b Fs c)) (visited b q)) -> length x = h5size ty * obj).
  { intros q x Hq Hx. apply in_map_iff in Hx. destruct Hx as (c & <- & Hc). apply visited_facts in Hc; [|easy|easy].
    rewrite image_length. destruct (words_at_facts w n b Fs c HF (proj1 Hc)) as [-> _]. lia. }
  destruct (write_nodes_ok real b ty obj (to_host e b w (n * w) Fs) k Hb Ho HK HD) as (D & E & Hd & Ht & Hv).
  - intros q Hq. rewrite to_host_eq by easy. rewrite (concat_length_eq (h5size ty * obj)) by (intros; now apply (HLen q)).
    rewrite map_length. destruct (visited_facts b q Hb Hq) as (-> & _). easy.
  - exists D. split; [exact E|]. split; [easy|]. split; [easy|]. intros q run l c j Hq Hl Hc Hj.
    rewrite (Hv q run l j Hq Hl Hj). f_equal. rewrite to_host_eq by easy.
    assert (EP : chunk (run * (h5size ty * obj)) (h5size ty * obj) (concat (map (fun c => image e w (words_at b Fs c)) (visited b q)))
       = image e w (words_at b Fs c)).
    { apply chunk_concat; [intros; now apply (HLen q)|]. now rewrite nth_error_map, Hc. }
    rewrite <- EP. rewrite chunk_chunk.
    + f_equal. ring.
    + assert (K : row_num (tail obj) j < obj).
      { clear -Hj Ho. unfold tail in *. destruct (Nat.ltb_spec 1 obj).
        - inversion Hj as [|x ? ? ? Hx Hl]; subst. inversion Hl; subst. cbn. lia.
        - inversion Hj; subst. cbn. lia. }
      nia.
Qed.

(** Unless the build visits the sites of a node in another order, the bytes of a site are at the site. *)
Lemma visited_at b c : build_ok b -> build_kind b <> CB3D -> in_lattice (build_size b) c ->
  let q := l_node (lay_of b) c in
  q < l_nodes (lay_of b) /\ exists run l, nth_error (all_sites (sub_size b)) run = Some l /\
    nth_error (visited b q) run = Some c /\ nth_error (reordermap b q) run = Some (l_lin (lay_of b) c) /\ c = shift (origin b q) l.
Proof.
  intros Hb Hk Hc q. destruct (local_of b c Hb Hc) as [Hq (l & Hl & El)]. split; [exact Hq|].
  apply all_sites_in in Hl. destruct (In_nth_error _ _ Hl) as [run Hr]. exists run, l. split; [easy|].
  assert (HV : nth_error (visited b q) run = Some c).
  { rewrite visited_lex by easy. rewrite nth_error_map, Hr. cbn. f_equal. symmetry. exact El. }
  split; [easy|]. split; [|easy]. rewrite reordermap_visited, nth_error_map, HV by easy. easy.
Qed.

Lemma write_fields_at e real b ty obj w n Fs : build_ok b -> build_kind b <> CB3D -> 0 < obj -> h5size ty * obj = length Fs * n * w ->
  Forall (field_ok w n b) Fs -> cuts real (h5size ty * obj * local_sites b) (local_last b) ->
  exists D, write_nodes real b ty obj (to_host e b w (n * w) Fs) = Val D /\ d_dims D = rev (build_size b) ++ tail obj /\ d_ty D = ty /\
    forall c j, in_lattice (build_size b) c -> in_lattice (tail obj) j ->
      d_val D (rev c ++ j) = Some (chunk (h5size ty * row_num (tail obj) j) (h5size ty) (image e w (words_at b Fs c))).
Proof.
  intros Hb Hk Ho Hsz HF HC. destruct (write_fields e real b ty obj w n Fs Hb Ho Hsz HF HC) as (D & E & Hd & Ht & Hv).
  exists D. split; [exact E|]. split; [easy|]. split; [easy|]. intros c j Hc Hj.
  destruct (visited_at b c Hb Hk Hc) as [Hq (run & l & H1 & H2 & _ & H4)]. rewrite <- (Hv _ run l c j Hq H1 H2 Hj). now rewrite <- H4.
Qed.

(** ** Reading fields *)
Lemma read_fields e conv b inv hs w n m obj D (U : list nat -> elem) Fs : build_ok b -> build_kind b <> CB3D ->
  0 < obj -> hs = 4 \/ hs = 8 -> (inv = true \/ length (build_size b) = 4) ->
  d_dims D = order inv (build_size b) ++ tail obj -> h5size (d_ty D) = m * hs ->
  cuts hs (m * obj * local_sites b) (if inv then local_last b else local_first b) ->
  length Fs * n = m * obj -> converts conv hs w ->
  (forall c, in_lattice (build_size b) c -> length (U c) = m * obj /\ Forall (fits hs) (U c)) ->
  (forall c j, in_lattice (build_size b) c -> in_lattice (tail obj) j ->
     d_val D (order inv c ++ j) = Some (chunk (h5size (d_ty D) * row_num (tail obj) j) (h5size (d_ty D)) (image e hs (U c)))) ->
  exists Fs', read_nodes e conv b inv hs w n obj (m * obj * vol (sub_size b)) D Fs = Val Fs' /\ length Fs' = length Fs /\
    forall dd F' c, nth_error Fs' dd = Some F' -> in_lattice (build_size b) c ->
      field_at b F' c = in_precision conv hs w (chunk (dd * n) n (U c)).
Proof.
  intros Hb Hk Ho Hhs Hinv Hdims Hes (k & HK & HD) HA HC HU HV. destruct (local_facts b Hb) as (E1 & E2 & E3).
  rewrite E1 in HK. rewrite E2, E3 in HD.
  assert (HR : forall j, in_lattice (tail obj) j -> row_num (tail obj) j < obj).
  { clear -Ho. intros j Hj. unfold tail in *. destruct (Nat.ltb_spec 1 obj).
    - inversion Hj as [|x ? ? ? Hx Hl]; subst. inversion Hl; subst. cbn. lia.
    - inversion Hj; subst. cbn. lia. }
  assert (HZ : sized D inv b obj).
  { intros c j Hc Hj. unfold h5_elem. rewrite HV by easy. apply chunk_length. rewrite image_length. destruct (HU c Hc) as [-> _].
    rewrite Hes. specialize (HR j Hj). nia. }
  assert (HSD : forall c, in_lattice (build_size b) c -> site_data D inv obj c = image e hs (U c)).
  { intros c Hc. unfold site_data.
    rewrite map_ext_in with (g := fun j => chunk (0 + row_num (tail obj) j * h5size (d_ty D)) (h5size (d_ty D)) (image e hs (U c))).
    2:{ intros j Hj. apply row_major_in in Hj. unfold h5_elem. rewrite HV by easy. f_equal. cbn. ring. }
    rewrite <- (map_map (row_num (tail obj)) (fun x => chunk (0 + x * h5size (d_ty D)) (h5size (d_ty D)) (image e hs (U c)))).
    rewrite row_num_all, concat_chunks. destruct (tail_facts obj Ho) as (-> & _).
    unfold chunk. cbn [skipn]. apply firstn_all2. rewrite image_length. destruct (HU c Hc) as [-> _]. rewrite Hes. nia. }
  destruct (read_nodes_ok e conv b inv hs w n m obj D k (fun q l => U (shift (origin b q) l)) Fs) as (Fs' & E & HL & Hv); try easy.
  - intros q l Hq Hl. destruct (site_of b q l Hb Hq Hl) as [Hc _]. split; [now apply HSD|]. now apply HU.
  - rewrite vol_volume. exists Fs'. split; [exact E|]. split; [easy|]. intros dd F' c HF Hc.
    destruct (visited_at b c Hb Hk Hc) as [Hq (run & l & H1 & H2 & H3 & H4)]. unfold field_at.
    rewrite (Hv dd F' _ run _ l HF Hq H3 H1). now rewrite <- H4.
Qed.

(** Written and read by the same build, whatever the order of the sites. *)
Lemma same_build e conv real b ty obj w n hs Fs Gs : build_ok b -> 0 < obj -> hs = 4 \/ hs = 8 -> h5base ty = hs ->
  h5size ty * obj = length Fs * n * hs -> length Gs = length Fs -> Forall (field_ok hs n b) Fs -> converts conv hs w ->
  cuts real (h5size ty * obj * local_sites b) (local_last b) -> cuts hs (length Fs * n * local_sites b) (local_last b) ->
  exists D, write_nodes real b ty obj (to_host e b hs (n * hs) Fs) = Val D /\ d_dims D = rev (build_size b) ++ tail obj /\ d_ty D = ty /\
  exists Fs', read_nodes e conv b true hs w n obj (length Fs * n * vol (sub_size b)) D Gs = Val Fs' /\ length Fs' = length Fs /\
    forall dd F F' c, nth_error Fs dd = Some F -> nth_error Fs' dd = Some F' -> in_lattice (build_size b) c ->
      field_at b F' c = in_precision conv hs w (field_at b F c).
Proof.
  intros Hb Ho Hhs Hbase Hsz HG HF HC HC1 (k & HK & HD).
  destruct (write_fields e real b ty obj hs n Fs Hb Ho Hsz HF HC1) as (D & E & Hd & Ht & Hv).
  exists D. split; [exact E|]. split; [easy|]. split; [easy|].
  destruct (local_facts b Hb) as (E1 & E2 & E3). rewrite E1 in HK. rewrite E2 in HD.
  assert (Hm : exists m, h5size ty = m * hs) by (destruct ty; cbn in *; subst; [exists 1; lia|exists 18; lia|exists 288; lia]).
  destruct Hm as [m Hm]. assert (Hmo : length Fs * n = m * obj) by (rewrite Hm in Hsz; destruct Hhs; subst hs; nia).
  assert (HR : forall j, in_lattice (tail obj) j -> row_num (tail obj) j < obj).
  { clear -Ho. intros j Hj. unfold tail in *. destruct (Nat.ltb_spec 1 obj).
    - inversion Hj as [|x ? ? ? Hx Hl]; subst. inversion Hl; subst. cbn. lia.
    - inversion Hj; subst. cbn. lia. }
  assert (HVis : forall q run l, q < l_nodes (lay_of b) -> nth_error (all_sites (sub_size b)) run = Some l ->
     exists c, nth_error (visited b q) run = Some c /\ in_lattice (build_size b) c /\ l_node (lay_of b) c = q).
  { intros q run l Hq Hl. destruct (visited_facts b q Hb Hq) as (HLv & _ & HIn).
    assert (Hr : run < length (visited b q)).
    { rewrite HLv, <- all_sites_length. apply nth_error_Some. congruence. }
    destruct (nth_error_lt _ _ Hr) as [c Ec]. exists c. split; [easy|]. apply HIn. apply (nth_error_In _ _ Ec). }
  set (V := fun q l => words_at b Fs (nth (row_num (rev (sub_size b)) (rev l)) (visited b q) [])).
  assert (EV : forall q run l c, nth_error (all_sites (sub_size b)) run = Some l -> nth_error (visited b q) run = Some c -> V q l = words_at b Fs c).
  { intros q run l c Hl Hc. unfold V. rewrite (row_num_nth _ _ _ Hl). now rewrite (nth_error_nth _ _ _ Hc). }
  assert (HZ : sized D true b obj).
  { intros c j Hc Hj. unfold h5_elem. cbn [order]. destruct (local_of b c Hb Hc) as [Hq (l & Hl & El)].
    apply all_sites_in in Hl. destruct (In_nth_error _ _ Hl) as [run Hr]. destruct (HVis _ _ _ Hq Hr) as (c' & Hc' & Hin & _).
    rewrite El. rewrite (Hv _ run l c' j Hq Hr Hc' Hj). rewrite Ht. apply chunk_length. rewrite image_length.
    destruct (words_at_facts hs n b Fs c' HF Hin) as [-> _]. rewrite Hmo, Hm. specialize (HR j Hj). nia. }
  destruct (read_nodes_ok e conv b true hs w n m obj D k V Gs) as (Fs' & E' & HL & Hr); try easy.
  - now left.
  - now rewrite Ht.
  - now rewrite <- Hmo.
  - now rewrite HG.
  - intros q l Hq Hl. apply all_sites_in in Hl. destruct (In_nth_error _ _ Hl) as [run Hrun].
    destruct (HVis _ _ _ Hq Hrun) as (c & Hc & Hin & _). rewrite (EV q run l c Hrun Hc).
    destruct (words_at_facts hs n b Fs c HF Hin) as [HL1 HL2]. split; [|split; [lia|easy]].
    unfold site_data. cbn [order].
    rewrite map_ext_in with (g := fun j => chunk (0 + row_num (tail obj) j * h5size ty) (h5size ty) (image e hs (words_at b Fs c))).
    2:{ intros j Hj. apply row_major_in in Hj. unfold h5_elem. rewrite (Hv q run l c j Hq Hrun Hc Hj). f_equal. cbn. ring. }
    rewrite <- (map_map (row_num (tail obj)) (fun x => chunk (0 + x * h5size ty) (h5size ty) (image e hs (words_at b Fs c)))).
    rewrite row_num_all, concat_chunks. destruct (tail_facts obj Ho) as (-> & _).
    unfold chunk. cbn [skipn]. apply firstn_all2. rewrite image_length, HL1. rewrite Hmo, Hm. nia.
  - exists Fs'. rewrite vol_volume, Hmo. split; [exact E'|]. split; [congruence|]. intros dd F F' c HF1 HF2 Hc.
    destruct (local_of b c Hb Hc) as [Hq _]. destruct (visited_facts b _ Hb Hq) as (HLv & _ & HIn).
    assert (Hi : In c (visited b (l_node (lay_of b) c))) by now apply HIn.
    destruct (In_nth_error _ _ Hi) as [run Hrun].
    assert (Hrl : run < length (all_sites (sub_size b))).
    { rewrite all_sites_length, <- HLv. apply nth_error_Some. congruence. }
    destruct (nth_error_lt _ _ Hrl) as [l Hl]. unfold field_at at 1.
    rewrite (Hr dd F' _ run _ l HF2 Hq); [|rewrite reordermap_visited, nth_error_map, Hrun by easy; easy|easy].
    rewrite (EV _ run l c Hl Hrun). f_equal. unfold words_at. apply chunk_concat.
    + intros x Hx. apply in_map_iff in Hx. destruct Hx as (G & <- & HG1). rewrite Forall_forall in HF. now apply (HF G HG1 c).
    + now rewrite nth_error_map, HF1.
Qed.

(** ** Checks of the readers *)
Lemma same_lattice_iff inv b sizes extra : length (order inv (build_size b)) <= length sizes ->
  sizes = firstn (length (build_size b)) sizes ++ extra ->
  (same_lattice inv b sizes = true <-> firstn (length (build_size b)) sizes = order inv (build_size b)).
Proof.
  rewrite order_length. intros HL HE. unfold same_lattice. fold (build_size b). set (L := build_size b) in *. rewrite forallb_forall.
  set (s := firstn (length L) sizes) in *. assert (Hs : length s = length L) by (unfold s; rewrite firstn_length; lia).
  assert (HG : forall i, i < length L -> get sizes i = get s i).
  { intros i Hi. rewrite HE. unfold get. now rewrite app_nth1 by lia. }
  assert (Hrev : forall i, i < length L -> get (rev L) i = get L (length L - i - 1)).
  { intros i Hi. unfold get. rewrite rev_nth by easy. f_equal. lia. }
  split.
  - intros H. apply get_ext; [now rewrite order_length|]. intros i Hi. rewrite Hs in Hi. rewrite <- HG by easy.
    destruct inv; cbn [order].
    + rewrite Hrev by easy. assert (K := H (length L - i - 1)). rewrite in_seq in K.
      specialize (K ltac:(lia)). apply Nat.eqb_eq in K. rewrite <- K. f_equal. lia.
    + assert (K := H i). rewrite in_seq in K. specialize (K ltac:(lia)). now apply Nat.eqb_eq in K.
  - intros E i Hi. apply in_seq in Hi. apply Nat.eqb_eq. destruct inv; cbn [order] in E.
    + rewrite HG by lia. rewrite E, Hrev by lia. f_equal. lia.
    + rewrite HG by lia. now rewrite E.
Qed.

Lemma same_lattice_app inv b L extra : length L = length (build_size b) ->
  (same_lattice inv b (L ++ extra) = true <-> L = order inv (build_size b)).
Proof.
  intros HL. assert (E : firstn (length (build_size b)) (L ++ extra) = L) by (rewrite firstn_app_l; [easy|lia]).
  rewrite same_lattice_iff with (extra := extra).
  - now rewrite E.
  - rewrite order_length, app_length. lia.
  - now rewrite E.
Qed.

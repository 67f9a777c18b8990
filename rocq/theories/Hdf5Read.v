(** Proofs about the model of HDF5 lattice datasets: reading. *)
From Coq Require Import List Arith NArith Bool Lia Permutation.
From Verif Require Import Base LayoutModel LayoutSpec LayoutProofs LayoutOk CrcModel SwapProofs IoProofs LatIoModel LatIoSpec
  LatIoProofs LatIoOk IoNodeProofs Hdf5Model Hdf5Spec Hdf5Proofs Hdf5Blocks Hdf5Xfer.
Import ListNotations.
Local Open Scope nat_scope.

Lemma nth_error_row_major d : forall i, in_lattice d i -> nth_error (row_major d) (row_num d i) = Some i.
Proof.
  intros i Hi. apply row_major_in in Hi. destruct (In_nth_error _ _ Hi) as [k Hk].
  assert (E : nth_error (map (row_num d) (row_major d)) k = Some (row_num d i)) by now rewrite nth_error_map, Hk.
  rewrite row_num_all in E. assert (HL : k < length (seq 0 (volume d))) by (apply nth_error_Some; congruence).
  rewrite seq_length in HL. rewrite (nth_error_nth' _ 0) in E by now rewrite seq_length. rewrite seq_nth in E by easy.
  injection E as <-. exact Hk.
Qed.

Lemma transpose_ok S cs (f : list nat -> list (option N)) : length S = 4 -> (forall l, in_lattice S l -> length (f l) = cs) ->
  transpose S cs (concat (map f (row_major S))) = Val (concat (map f (all_sites S))).
Proof.
  intros HL Hf. destruct S as [|lx [|ly [|lz [|lt [|]]]]]; cbn in HL; try lia. unfold transpose. f_equal.
  assert (HC : forall x y z t, x < lx -> y < ly -> z < lz -> t < lt ->
     chunk (cs * (t + lt * (z + lz * (y + ly * x)))) cs (concat (map f (row_major [lx; ly; lz; lt]))) = f [x; y; z; t]).
  { intros x y z t Hx Hy Hz Ht. assert (Hi : in_lattice [lx; ly; lz; lt] [x; y; z; t]) by (repeat constructor; easy).
    rewrite (Nat.mul_comm cs). apply (chunk_concat cs (map f (row_major [lx; ly; lz; lt]))).
    - intros l Hl. apply in_map_iff in Hl. destruct Hl as (c & <- & Hc). apply Hf. now apply row_major_in.
    - rewrite nth_error_map. assert (E := nth_error_row_major _ _ Hi). cbn [row_num volume] in E.
      match goal with |- option_map f (nth_error _ ?a) = _ => match type of E with nth_error _ ?b = _ => replace a with b by ring end end.
      rewrite E. reflexivity. }
  cbn [all_sites]. rewrite !flat_map_flat. cbn [flat_map]. rewrite app_nil_r, !flat_map_map_l, map_flat_map, concat_flat, flat_map_concat_map.
  f_equal. apply map_ext_in. intros t Ht. apply in_seq in Ht.
  rewrite flat_map_map_l, map_flat_map, concat_flat, flat_map_concat_map. f_equal. apply map_ext_in. intros z Hz. apply in_seq in Hz.
  rewrite flat_map_map_l, map_flat_map, concat_flat, flat_map_concat_map. f_equal. apply map_ext_in. intros y Hy. apply in_seq in Hy.
  rewrite map_map, flat_map_concat_map. f_equal. apply map_ext_in. intros x Hx. apply in_seq in Hx. apply HC; lia.
Qed.

Definition cut_dir (inv : bool) (b : build) : nat := if inv then last (sub_size b) 0 else get (sub_size b) 0.

Lemma site_data_length D inv b obj c : 0 < obj -> sized D inv b obj -> in_lattice (build_size b) c ->
  length (site_data D inv obj c) = h5size (d_ty D) * obj.
Proof.
  intros Ho HZ Hc. unfold site_data. rewrite (concat_length_eq (h5size (d_ty D))).
  - rewrite map_length, row_major_length. destruct (tail_facts obj Ho) as (-> & _). easy.
  - intros l Hl. apply in_map_iff in Hl. destruct Hl as (j & <- & Hj). apply row_major_in in Hj. now apply HZ.
Qed.

Lemma read_node_ok b inv hs m obj q D k : build_ok b -> 0 < obj -> q < l_nodes (lay_of b) -> hs = 4 \/ hs = 8 ->
  (inv = true \/ length (build_size b) = 4) ->
  d_dims D = order inv (build_size b) ++ tail obj -> h5size (d_ty D) = m * hs -> sized D inv b obj ->
  halvings hs (m * obj * volume (sub_size b)) k -> Nat.divide (2 ^ k) (cut_dir inv b) ->
  read_node b inv hs obj (m * obj * volume (sub_size b)) q D
  = Val (map Some (concat (map (fun l => site_data D inv obj (shift (origin b q) l)) (all_sites (sub_size b))))).
Proof.
  intros Hb Ho Hq Hhs Hinv Hdims Hes HZ HK HD. unfold read_node.
  replace ((hs =? 4) || (hs =? 8)) with true by (destruct Hhs; subst; easy). cbn [negb].
  assert (H := read_blocks b inv hs m obj q D k Hb Ho Hq Hdims Hes HZ HK HD). cbn zeta in H.
  destruct (split_of hs (m * obj * volume (sub_size b)) (get (node_dims b inv obj) 0)) as [[total d0] blocks].
  destruct H as (bufs & E1 & E2 & E3). rewrite E1. cbn [bind]. rewrite E2, E3. cbn [repeat]. rewrite app_nil_r.
  destruct (node_sites b q Hb Hq) as (HS & HO & HP & _).
  unfold file_sites. destruct inv; [easy|].
  destruct Hinv as [Hi|Hi]; [discriminate|]. rewrite concat_map, map_map.
  rewrite transpose_ok with (f := fun l => map Some (site_data D false obj (shift (origin b q) l))).
  - now rewrite concat_map, map_map.
  - lia.
  - intros l Hl. rewrite map_length, site_data_length with (b := b); [|easy|easy|now apply site_of].
    rewrite vol_volume, Nat.div_mul by (assert (0 < volume (sub_size b)) by (now apply volume_pos); lia). rewrite Hes. ring.
Qed.

(** ** Words *)
Lemma known_some (bs : list N) : known (map Some bs) = Val bs.
Proof.
  unfold known. induction bs as [|x bs IH]; [easy|]. cbn [map mapM of_option bind]. rewrite IH. easy.
Qed.

Lemma image_chunk e w p n ws : chunk (p * w) (n * w) (image e w ws) = image e w (chunk p n ws).
Proof.
  unfold image. revert ws. induction p as [|p IH]; intros ws.
  - unfold chunk. cbn [Nat.mul skipn]. revert ws. induction n as [|n IHn]; intros [|x ws]; cbn [Nat.mul map concat firstn]; try easy.
    + now rewrite firstn_nil.
    + rewrite firstn_app, mem_length. replace (w + n * w - w) with (n * w) by lia. rewrite IHn. f_equal.
      rewrite firstn_all2; [easy|]. rewrite mem_length. lia.
  - destruct ws as [|x ws].
    + unfold chunk. cbn [map concat]. now rewrite !skipn_nil, !firstn_nil.
    + cbn [Nat.mul map concat]. unfold chunk at 1. rewrite skipn_app, mem_length.
      replace (w + p * w - w) with (p * w) by lia. rewrite skipn_all2 by (rewrite mem_length; lia). cbn [app].
      fold (chunk (p * w) (n * w) (concat (map (mem e w) ws))). rewrite IH. reflexivity.
Qed.

Lemma convert_image e conv hs w ws : Forall (fits hs) ws ->
  convert e conv hs w (length ws) (map Some (image e hs ws)) = map Some (image e w (map (conv hs w) ws)).
Proof.
  intros HF. unfold convert.
  rewrite flat_map_ext_in' with (g := fun i => map Some (mem e w (conv hs w (nth i ws 0%N)))).
  - unfold image. rewrite map_map, concat_map, map_map, <- flat_map_concat_map.
    clear HF. induction ws as [|x ws IH] using rev_ind; [easy|]. rewrite app_length. cbn [length]. rewrite Nat.add_1_r, seq_S, flat_map_app_l, flat_map_app_l.
    f_equal.
    + rewrite <- IH. apply flat_map_ext_in'. intros i Hi. apply in_seq in Hi. rewrite app_nth1 by lia. easy.
    + cbn [flat_map Nat.add]. now rewrite app_nth2, Nat.sub_diag by lia.
  - intros i Hi. apply in_seq in Hi. rewrite chunk_map.
    assert (E := image_chunk e hs i 1 ws). rewrite Nat.mul_1_l in E. rewrite E.
    assert (E1 : chunk i 1 ws = [nth i ws 0%N]).
    { unfold chunk. destruct (skipn i ws) as [|y r] eqn:Es.
      - assert (K : length (skipn i ws) = 0) by now rewrite Es. rewrite skipn_length in K. lia.
      - cbn. f_equal. rewrite <- (firstn_skipn i ws), Es, app_nth2; rewrite firstn_length; [|lia].
        replace (i - Nat.min i (length ws)) with 0 by lia. easy. }
    rewrite E1. unfold image. cbn [map concat]. rewrite app_nil_r, known_some. rewrite word_mem; [easy|].
    rewrite Forall_forall in HF. apply HF. apply nth_In. lia.
Qed.

(** ** Into the fields *)
Lemma nth_error_combine {A B} (l : list A) : forall (l' : list B) i a b, nth_error l i = Some a -> nth_error l' i = Some b ->
  nth_error (combine l l') i = Some (a, b).
Proof. induction l as [|x l IH]; intros [|y l'] [|i] a b H1 H2; cbn in *; try discriminate; [congruence|]. now apply IH. Qed.

Lemma to_layout_ok e b w n (bytes : list N) q Fs : NoDup (reordermap b q) -> length (reordermap b q) = volume (sub_size b) ->
  volume (sub_size b) * (length Fs * (n * w)) <= length bytes ->
  exists Fs', to_layout e b w n (map Some bytes) q Fs = Val Fs' /\ length Fs' = length Fs /\
    forall dd F F', nth_error Fs dd = Some F -> nth_error Fs' dd = Some F' ->
      (forall q' i, q' <> q -> F' q' i = F q' i) /\
      forall run i, nth_error (reordermap b q) run = Some i ->
        F' q i = unimage e w n (chunk ((dd + length Fs * run) * (n * w)) (n * w) bytes).
Proof.
  intros HN HL HB. unfold to_layout. rewrite vol_volume.
  set (A := length Fs). set (V := volume (sub_size b)) in *.
  set (g := fun run dd => unimage e w n (chunk ((dd + A * run) * (n * w)) (n * w) bytes)).
  assert (G : forall rs Gs, length Gs = A -> NoDup (map snd rs) -> (forall r, In r rs -> fst r < V) ->
    exists Gs', foldM (fun r Fs => mapM (fun p => put_elem e w n (map Some bytes) q (snd r) (fst p + length Fs * fst r) (snd p))
                         (combine (seq 0 (length Fs)) Fs)) rs Gs = Val Gs' /\ length Gs' = A /\
      forall dd F F', nth_error Gs dd = Some F -> nth_error Gs' dd = Some F' ->
       (forall q' i, q' <> q -> F' q' i = F q' i) /\
       (forall i, ~ In i (map snd rs) -> F' q i = F q i) /\
       (forall r, In r rs -> F' q (snd r) = g (fst r) dd)).
  { induction rs as [|[run i] rs IH]; intros Gs HG HND HR.
    - exists Gs. cbn [foldM]. split; [easy|]. split; [easy|]. intros dd F F' E E'. rewrite E in E'. injection E' as <-.
      split; [easy|]. split; [easy|]. intros r [].
    - cbn [map snd] in HND. inversion HND as [|? ? Hni HND']; subst. cbn [foldM snd fst].
      rewrite mapM_val with (g := fun p => fset (snd p) q i (g run (fst p))).
      2:{ intros [dd F] Hp. apply in_combine_l in Hp. apply in_seq in Hp. cbn [fst snd]. unfold put_elem.
          rewrite map_length, HG.
          assert (Hr : run < V) by (apply (HR (run, i)); now left).
          replace (length bytes <? (dd + A * run + 1) * (n * w)) with false.
          2:{ symmetry. apply Nat.ltb_ge. assert (HVA : dd + A * run + 1 <= V * A) by nia. fold A in HB.
              apply Nat.le_trans with (V * A * (n * w)); [now apply Nat.mul_le_mono_r|lia]. }
          rewrite chunk_map, known_some. reflexivity. }
      cbn [bind]. set (Gs1 := map _ (combine (seq 0 (length Gs)) Gs)).
      assert (HG1 : length Gs1 = A) by (unfold Gs1; rewrite map_length, combine_length, seq_length; lia).
      destruct (IH Gs1 HG1 HND') as (Gs' & E & HG' & Hv); [intros r Hr; apply HR; now right|].
      exists Gs'. split; [exact E|]. split; [easy|]. intros dd F F' EF EF'.
      assert (EF1 : nth_error Gs1 dd = Some (fset F q i (g run dd))).
      { unfold Gs1. rewrite nth_error_map. assert (Hd : dd < length Gs) by (apply nth_error_Some; congruence).
        rewrite (nth_error_combine _ _ dd dd F); [easy| |easy].
        rewrite (nth_error_nth' _ 0) by now rewrite seq_length. now rewrite seq_nth. }
      destruct (Hv dd _ F' EF1 EF') as (H1 & H2 & H3). split; [|split].
      + intros q' j Hq. rewrite H1 by easy. unfold fset. replace (q' =? q) with false by (symmetry; now apply Nat.eqb_neq). easy.
      + intros j Hj. cbn [map snd In] in Hj. rewrite H2 by tauto. unfold fset.
        replace (j =? i) with false by (symmetry; apply Nat.eqb_neq; intros ->; tauto). now rewrite andb_false_r.
      + intros r [<-|Hr]; [|now apply H3]. cbn [fst snd]. rewrite H2 by easy. unfold fset. now rewrite !Nat.eqb_refl. }
  destruct (G (combine (seq 0 V) (reordermap b q)) Fs eq_refl) as (Fs' & E & HL' & Hv).
  - replace (map snd (combine (seq 0 V) (reordermap b q))) with (reordermap b q); [easy|].
    rewrite <- HL. generalize 0. generalize (reordermap b q). clear. induction l as [|x l IH]; intros s; cbn; [easy|]. now rewrite <- IH.
  - intros [run i] Hr. apply in_combine_l in Hr. apply in_seq in Hr. cbn. lia.
  - exists Fs'. split; [exact E|]. split; [easy|]. intros dd F F' EF EF'. destruct (Hv dd F F' EF EF') as (H1 & _ & H3).
    split; [easy|]. intros run i Hi. apply (H3 (run, i)).
    apply nth_error_In with (n := run). apply nth_error_combine; [|easy].
    assert (Hr : run < V) by (rewrite <- HL; apply nth_error_Some; congruence).
    rewrite (nth_error_nth' _ 0) by now rewrite seq_length. now rewrite seq_nth.
Qed.


Lemma image_app e w a b : image e w (a ++ b) = image e w a ++ image e w b.
Proof. unfold image. now rewrite map_app, concat_app. Qed.
Lemma image_concat e w ls : image e w (concat ls) = concat (map (image e w) ls).
Proof. induction ls; cbn [concat map]; [easy|]. now rewrite image_app, IHls. Qed.
Lemma unimage_exact e w n ws : length ws = n -> Forall (fits w) ws -> unimage e w n (image e w ws) = ws.
Proof. intros H1 H2. rewrite <- (app_nil_r (image e w ws)). now apply unimage_image. Qed.
Lemma in_precision_length conv hs w ws : length (in_precision conv hs w ws) = length ws.
Proof. unfold in_precision. destruct (hs =? w); [easy|]. now rewrite map_length. Qed.
Lemma Forall_chunk {A} (P : A -> Prop) p n l : Forall P l -> Forall P (chunk p n l).
Proof.
  intros H. unfold chunk. rewrite Forall_forall in *. intros x Hx. apply H.
  assert (K : In x (skipn p l)) by (rewrite <- (firstn_skipn n (skipn p l)); apply in_or_app; now left).
  rewrite <- (firstn_skipn p l). apply in_or_app. now right.
Qed.
Lemma Forall_concat' {A} (P : A -> Prop) ls : (forall l, In l ls -> Forall P l) -> Forall P (concat ls).
Proof. intros H. induction ls as [|a ls IH]; cbn; [easy|]. apply Forall_app. split; [apply H; now left|]. apply IH. intros; apply H; now right. Qed.
Lemma nth_error_lt {A} (l : list A) i : i < length l -> exists x, nth_error l i = Some x.
Proof. intros H. destruct (nth_error l i) eqn:E; [eauto|]. apply nth_error_None in E. lia. Qed.
Lemma in_precision_chunk conv hs w p n ws : in_precision conv hs w (chunk p n ws) = chunk p n (in_precision conv hs w ws).
Proof. unfold in_precision. destruct (hs =? w); [easy|]. now rewrite chunk_map. Qed.
Lemma reordermap_length b q : build_ok b -> q < l_nodes (lay_of b) -> length (reordermap b q) = volume (sub_size b).
Proof. intros Hb Hq. rewrite reordermap_visited, map_length by easy. now apply visited_facts. Qed.
Lemma all_sites_length L : length (all_sites L) = volume L.
Proof. rewrite <- (map_length (@rev nat)), <- row_major_rev, row_major_length. apply volume_rev. Qed.

Lemma read_nodes_ok e conv b inv hs w n m obj D k (V : nat -> list nat -> elem) Fs : build_ok b -> 0 < obj -> hs = 4 \/ hs = 8 ->
  (inv = true \/ length (build_size b) = 4) ->
  d_dims D = order inv (build_size b) ++ tail obj -> h5size (d_ty D) = m * hs -> sized D inv b obj ->
  halvings hs (m * obj * volume (sub_size b)) k -> Nat.divide (2 ^ k) (cut_dir inv b) ->
  length Fs * n = m * obj ->
  (forall q l, q < l_nodes (lay_of b) -> in_lattice (sub_size b) l ->
     site_data D inv obj (shift (origin b q) l) = image e hs (V q l) /\ length (V q l) = m * obj /\ Forall (fits hs) (V q l)) ->
  converts conv hs w ->
  exists Fs', read_nodes e conv b inv hs w n obj (m * obj * volume (sub_size b)) D Fs = Val Fs' /\ length Fs' = length Fs /\
    forall dd F' q run i l, nth_error Fs' dd = Some F' -> q < l_nodes (lay_of b) ->
      nth_error (reordermap b q) run = Some i -> nth_error (all_sites (sub_size b)) run = Some l ->
      F' q i = in_precision conv hs w (chunk (dd * n) n (V q l)).
Proof.
  intros Hb Ho Hhs Hinv Hdims Hes HZ HK HD HA HV HC. unfold read_nodes.
  assert (G : forall N, N <= l_nodes (lay_of b) ->
    exists Fs', foldM (fun q Fs => bind (read_node b inv hs obj (m * obj * volume (sub_size b)) q D) (fun buf =>
        to_layout e b w n (if hs =? w then buf else convert e conv hs w (m * obj * volume (sub_size b)) buf) q Fs)) (seq 0 N) Fs = Val Fs' /\
      length Fs' = length Fs /\
      forall dd F' q run i l, nth_error Fs' dd = Some F' -> q < N ->
      nth_error (reordermap b q) run = Some i -> nth_error (all_sites (sub_size b)) run = Some l ->
      F' q i = in_precision conv hs w (chunk (dd * n) n (V q l))).
  2:{ apply (G _ (le_n _)). }
  induction N as [|N IH]; intros HN.
  - exists Fs. split; [easy|]. split; [easy|]. intros; lia.
  - destruct IH as (Gs & E & HG & Hv); [lia|]. rewrite seq_S, foldM_app, E. cbn [bind foldM Nat.add].
    assert (HN' : N < l_nodes (lay_of b)) by lia.
    rewrite (read_node_ok b inv hs m obj N D k) by easy. cbn [bind].
    set (W := concat (map (V N) (all_sites (sub_size b)))).
    assert (EW : concat (map (fun l => site_data D inv obj (shift (origin b N) l)) (all_sites (sub_size b))) = image e hs W).
    { unfold W. rewrite image_concat, map_map. f_equal. apply map_ext_in. intros l Hl. apply all_sites_in in Hl. now apply HV. }
    assert (HWp : forall l, In l (map (V N) (all_sites (sub_size b))) -> length l = m * obj).
    { intros x Hx. apply in_map_iff in Hx. destruct Hx as (l & <- & Hl). apply all_sites_in in Hl. now apply HV. }
    assert (HWl : length W = m * obj * volume (sub_size b)).
    { unfold W. rewrite (concat_length_eq (m * obj)) by easy. now rewrite map_length, all_sites_length. }
    assert (HWs : Forall (fits hs) W).
    { apply Forall_concat'. intros x Hx. apply in_map_iff in Hx. destruct Hx as (l & <- & Hl). apply all_sites_in in Hl. now apply HV. }
    rewrite EW. replace (if hs =? w then _ else _) with (map Some (image e w (in_precision conv hs w W))).
    2:{ unfold in_precision. destruct (Nat.eqb_spec hs w) as [->|Hne]; [easy|]. rewrite <- HWl. now rewrite convert_image. }
    destruct (to_layout_ok e b w n (image e w (in_precision conv hs w W)) N Gs) as (Gs' & E' & HG' & Hv').
    { now apply visited_facts. }
    { now apply reordermap_length. }
    { rewrite image_length, in_precision_length, HWl, HG, <- HA. apply Nat.eq_le_incl. ring. }
    rewrite E'. cbn [bind]. exists Gs'. split; [easy|]. split; [congruence|].
    intros dd F' q run i l EF Hq Hi Hl.
    assert (Hdd : dd < length Gs) by (rewrite <- HG'; apply nth_error_Some; congruence).
    destruct (nth_error_lt Gs dd Hdd) as [F0 EF0]. destruct (Hv' dd F0 F' EF0 EF) as [H1 H2].
    destruct (Nat.eq_dec q N) as [->|Hne]; [|rewrite H1 by easy; apply (Hv dd F0 q run i l EF0 ltac:(lia) Hi Hl)].
    rewrite (H2 run i Hi), Nat.mul_assoc, image_chunk.
    assert (EC : chunk ((dd + length Gs * run) * n) n (in_precision conv hs w W) = in_precision conv hs w (chunk (dd * n) n (V N l))).
    { rewrite <- in_precision_chunk. f_equal.
      assert (EP : chunk (run * (m * obj)) (m * obj) W = V N l).
      { apply chunk_concat; [easy|]. now rewrite nth_error_map, Hl. }
      rewrite <- EP. rewrite chunk_chunk by (rewrite <- HA, <- HG; nia). f_equal. rewrite <- HA, <- HG. ring. }
    rewrite EC. apply unimage_exact.
    + rewrite in_precision_length. apply chunk_length.
      destruct (HV N l HN') as (_ & -> & _); [apply all_sites_in, (nth_error_In _ _ Hl)|]. rewrite <- HA, <- HG. nia.
    + assert (HF : Forall (fits hs) (chunk (dd * n) n (V N l))).
      { apply Forall_chunk. apply HV; [easy|]. apply all_sites_in, (nth_error_In _ _ Hl). }
      unfold in_precision. destruct (Nat.eqb_spec hs w) as [->|Hw]; [easy|].
      rewrite Forall_forall in *. intros v Hv1. apply in_map_iff in Hv1. destruct Hv1 as (u & <- & Hu). apply HC; [now apply HF|easy].
Qed.

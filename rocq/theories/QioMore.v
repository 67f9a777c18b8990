(** Proofs about records of arrays, scalars and buffers in QIO files, and about records read back as something else. *)
From Coq Require Import List Arith NArith Bool Lia.
From Verif Require Import Base LayoutModel LayoutSpec LayoutProofs LayoutOk CrcModel SwapProofs IoModel IoSpec IoProofs LatIoModel LatIoSpec LatIoProofs LatIoOk
  IoNodeProofs QioModel QioSpec QioProofs.
Import ListNotations.
Local Open Scope nat_scope.

(** ** Elements inside a buffer *)
Lemma skip_image e t : forall j (vs : list elem), Forall (site_ok (wsize (t_word t)) (t_nmemb t)) vs ->
  skipn (j * sizeof t) (image e (wsize (t_word t)) (concat vs)) = image e (wsize (t_word t)) (concat (skipn j vs)).
Proof.
  induction j as [|j IH]; intros vs H; [reflexivity|]. destruct vs as [|w vs]; [cbn; now rewrite skipn_nil|].
  inversion H as [|? ? [L _] H']; subst. cbn [concat skipn]. rewrite <- IH by auto. rewrite <- !image_concat. cbn [map concat].
  rewrite !image_concat. replace (S j * sizeof t) with (sizeof t + j * sizeof t) by lia. unfold image. rewrite map_app, concat_app.
  fold (image e (wsize (t_word t)) w). fold (image e (wsize (t_word t)) (concat vs)).
  rewrite skipn_app. rewrite image_length, L. fold (sizeof t). unfold sizeof. rewrite skipn_all2 by (rewrite image_length; lia).
  cbn [app]. f_equal. lia.
Qed.
Lemma elem_at_image e t (vs : list elem) j : Forall (site_ok (wsize (t_word t)) (t_nmemb t)) vs -> j < length vs ->
  elem_at e t (image e (wsize (t_word t)) (concat vs)) j = nth j vs [].
Proof.
  intros H Hj. unfold elem_at. rewrite skip_image by auto.
  destruct (skipn j vs) as [|w r] eqn:E.
  { pose proof (skipn_length j vs) as X. rewrite E in X. cbn in X. lia. }
  assert (Hw : nth j vs [] = w).
  { rewrite <- (firstn_skipn j vs), E. rewrite app_nth2; rewrite firstn_length, Nat.min_l by lia; [|lia]. now rewrite Nat.sub_diag. }
  rewrite Hw. cbn [concat]. unfold image. rewrite map_app, concat_app. apply unimage_image.
  rewrite Forall_forall in H. apply H. rewrite <- Hw. now apply nth_In.
Qed.
Lemma concat_len (vs : list elem) n : Forall (fun w => length w = n) vs -> length (concat vs) = length vs * n.
Proof. intros H. rewrite (concat_length_const vs n H). lia. Qed.

(** ** Arrays of lattices *)
Definition site_values (b : build) (Fs : list field) (c : list nat) : list elem := map (fun F => field_at b F c) Fs.
Definition array_record (b : build) (t : ty) (Fs : list field) : record :=
  mkRec Field (tprec (t_word t)) (t_colors t) (t_spins t) (sizeof t) (length Fs) (build_size b)
    (concat (map (fun c => site_bytes (wsize (t_word t)) (concat (site_values b Fs c))) (all_sites (build_size b)))).

Lemma site_values_ok b t Fs c : (forall F, In F Fs -> holds t b F) -> in_lattice (build_size b) c ->
  Forall (site_ok (wsize (t_word t)) (t_nmemb t)) (site_values b Fs c).
Proof. intros H Hc. apply Forall_forall. intros w Hw. apply in_map_iff in Hw as (F & <- & HF). now apply H. Qed.
Lemma site_values_len b t Fs c : (forall F, In F Fs -> holds t b F) -> in_lattice (build_size b) c ->
  length (concat (site_values b Fs c)) = length Fs * t_nmemb t.
Proof.
  intros H Hc. rewrite (concat_len _ (t_nmemb t)); [unfold site_values; now rewrite map_length|].
  eapply Forall_impl; [|now apply site_values_ok with (t := t)]. intros a [A _]. exact A.
Qed.

Lemma write_lattices_ok e b t Fs : build_ok b -> ty_ok t -> (forall F, In F Fs -> holds t b F) ->
  write_lattices e b t Fs = Val (Some (array_record b t Fs)).
Proof.
  intros Hb Ht HF. unfold write_lattices.
  replace (length Fs * sizeof t) with (length Fs * t_nmemb t * wsize (t_word t)) by (unfold sizeof; lia).
  apply (qio_write_sites e (lay_of b) Field _ _ _ _ _ _ _ _ (fun c => concat (site_values b Fs c))); auto; [discriminate|unfold sizeof; lia|].
  intros c Hc. apply record_sites_in in Hc. split; [|now apply site_values_len].
  unfold factory_get_array. destruct (Nat.ltb_spec (l_lin (lay_of b) c) (l_sites (lay_of b))) as [|X]; [|pose proof (lin_lt b c Hb Hc); lia].
  f_equal. rewrite <- image_concat. unfold site_values. rewrite map_map. reflexivity.
Qed.

Definition put_values (lay : layout) (vals : list nat -> list elem) (c : list nat) (Gs : list field) : list field :=
  map (fun p => fset (snd p) (l_node lay c) (l_lin lay c) (nth (fst p) (vals c) [])) (combine (seq 0 (length Gs)) Gs).

Lemma put_values_length lay vals c Gs : length (put_values lay vals c Gs) = length Gs.
Proof. unfold put_values. rewrite map_length, combine_length, seq_length. apply Nat.min_id. Qed.
Lemma nth_combine_seq {A} (d : A) : forall l a i, i < length l -> nth i (combine (seq a (length l)) l) (0, d) = (a + i, nth i l d).
Proof.
  induction l as [|x l IH]; intros a i Hi; [cbn in Hi; lia|]. cbn [length seq combine]. destruct i; [cbn; now rewrite Nat.add_0_r|].
  cbn [nth]. rewrite IH by (cbn in Hi; lia). f_equal. lia.
Qed.
Lemma put_values_nth lay vals c Gs i d : i < length Gs ->
  nth i (put_values lay vals c Gs) d = fset (nth i Gs d) (l_node lay c) (l_lin lay c) (nth i (vals c) []).
Proof.
  intros Hi. unfold put_values.
  set (f := fun p : nat * field => fset (snd p) (l_node lay c) (l_lin lay c) (nth (fst p) (vals c) [])).
  rewrite (nth_indep _ d (f (0, d))) by (rewrite map_length, combine_length, seq_length; lia).
  rewrite (map_nth f). rewrite (nth_combine_seq d Gs 0 i Hi). reflexivity.
Qed.
Lemma fold_put_values lay vals d : forall cs Gs, length (fold_left (fun s c => put_values lay vals c s) cs Gs) = length Gs /\
  forall i, i < length Gs -> nth i (fold_left (fun s c => put_values lay vals c s) cs Gs) d
    = fill (nth i Gs d) (map (place lay) cs) (map (fun c => nth i (vals c) []) cs).
Proof.
  induction cs as [|c cs IH]; intros Gs; [split; auto|]. cbn [fold_left map fill place fst snd].
  destruct (IH (put_values lay vals c Gs)) as [L N]. rewrite put_values_length in *. split; [exact L|]. intros i Hi.
  rewrite N by auto. now rewrite put_values_nth.
Qed.

Lemma read_array_raw e b t p co sp (vals : list nat -> list elem) Gs : build_ok b -> ty_ok t ->
  (forall c, in_lattice (build_size b) c -> length (vals c) = length Gs /\ Forall (site_ok (wsize (t_word t)) (t_nmemb t)) (vals c)) ->
  qio_read e (lay_of b) (mkRec Field p co sp (sizeof t) (length Gs) (build_size b)
      (concat (map (fun c => site_bytes (wsize (t_word t)) (concat (vals c))) (all_sites (build_size b)))))
    (factory_put_array e t (l_sites (lay_of b))) (length Gs * sizeof t) (wsize (t_word t)) Gs
  = Val (fold_left (fun s c => put_values (lay_of b) vals c s) (all_sites (build_size b)) Gs).
Proof.
  intros Hb Ht Hv. replace (length Gs * sizeof t) with (length Gs * t_nmemb t * wsize (t_word t)) by (unfold sizeof; lia).
  apply (qio_read_sites e _ (put_values (lay_of b) vals) (fun s => length s = length Gs) (lay_of b) Field _ _ _ _ _ _ _
           (fun c => concat (vals c))); auto; [discriminate|unfold sizeof; lia|].
  intros c s Hc Ls. apply record_sites_in in Hc. destruct (Hv c Hc) as [L1 F1].
  assert (LC : length (concat (vals c)) = length Gs * t_nmemb t).
  { rewrite (concat_len _ (t_nmemb t)), L1; auto. eapply Forall_impl; [|exact F1]. intros a [A _]. exact A. }
  split; [|split; [exact LC|now rewrite put_values_length]].
  unfold factory_put_array. rewrite image_length, LC, Ls.
  destruct (Nat.leb_spec (length Gs * sizeof t) (wsize (t_word t) * (length Gs * t_nmemb t))) as [|X]; [|unfold sizeof in X; lia].
  destruct (Nat.ltb_spec (l_lin (lay_of b) c) (l_sites (lay_of b))) as [|X]; [|pose proof (lin_lt b c Hb Hc); lia].
  cbn [andb]. f_equal. unfold put_values. rewrite Ls. apply map_ext_in. intros [j G] Hin. cbn [fst snd]. f_equal.
  apply elem_at_image; auto. apply in_combine_l in Hin. apply in_seq in Hin. lia.
Qed.

Lemma nth_site_values b Fs c i : i < length Fs -> forall d, nth i (site_values b Fs c) [] = field_at b (nth i Fs d) c.
Proof.
  intros Hi d. unfold site_values. rewrite (nth_indep _ [] (field_at b d c)) by (now rewrite map_length).
  now rewrite (map_nth (fun F => field_at b F c)).
Qed.

Lemma read_lattices_ok e widen narrow b1 b2 t1 t2 Fs Gs d : build_ok b1 -> build_ok b2 -> build_size b1 = build_size b2 -> ty_ok t1 ->
  same_shape t1 t2 -> compatible (t_word t1) (t_word t2) -> (forall F, In F Fs -> holds t1 b1 F) -> length Gs = length Fs ->
  exists Hs, read_lattices e widen narrow b2 t2 (array_record b1 t1 Fs) Gs = Val Hs /\ length Hs = length Fs /\
    forall i c, i < length Fs -> in_lattice (build_size b2) c ->
      field_at b2 (nth i Hs d) c = conv_elem widen narrow (t_word t1) (t_word t2) (field_at b1 (nth i Fs d) c).
Proof.
  intros Hb1 Hb2 Hs Ht Hsh Hc HF Hl. pose proof (compatible_back _ _ Hc) as Hback. set (w := t_word t1) in *.
  set (R := array_record b1 t1 Fs). assert (Hp : r_prec R = tprec w) by reflexivity.
  assert (Raw : forall Gs', length Gs' = length Fs -> exists H', qio_read e (lay_of b2) R (factory_put_array e (with_word t2 w) (l_sites (lay_of b2)))
       (length Gs' * sizeof (with_word t2 w)) (wsize w) Gs' = Val H' /\ length H' = length Fs /\
       forall i c, i < length Fs -> in_lattice (build_size b2) c -> field_at b2 (nth i H' d) c = field_at b1 (nth i Fs d) c).
  { intros Gs' L'. unfold R, array_record. rewrite Hs. fold w.
    replace (sizeof t1) with (sizeof (with_word t2 w)) by (unfold sizeof, with_word; cbn; fold w; now rewrite Hsh).
    rewrite <- L'. eexists. split.
    { apply (read_array_raw e b2 (with_word t2 w)); auto. intros c Hin. rewrite <- Hs in Hin.
      split; [unfold site_values; now rewrite map_length|]. cbn. rewrite <- Hsh. now apply site_values_ok. }
    destruct (fold_put_values (lay_of b2) (site_values b1 Fs) d (all_sites (build_size b2)) Gs') as [A B].
    split; [exact A|]. intros i c Hi Hin. rewrite B by lia.
    destruct (fill_at b2 Field (nth i Gs' d) (fun c => nth i (site_values b1 Fs c) []) c Hb2 Hin) as [C _].
    cbn [record_sites] in C. rewrite C by (now apply all_sites_in). apply nth_site_values. lia. }
  unfold read_lattices. cbv zeta. rewrite Hp. clearbody R.
  assert (Via : forall Z0, exists H', bind (qio_read e (lay_of b2) R (factory_put_array e (with_word t2 w) (l_sites (lay_of b2)))
       (length Gs * sizeof (with_word t2 w)) (wsize w) (map (fun _ => Z0) Gs)) (fun fd => Val (map (assign_all widen narrow w (t_word t2)) fd)) = Val H' /\
       length H' = length Fs /\ forall i c, i < length Fs -> in_lattice (build_size b2) c ->
          field_at b2 (nth i H' d) c = conv_elem widen narrow w (t_word t2) (field_at b1 (nth i Fs d) c)).
  { intros Z0. destruct (Raw (map (fun _ => Z0) Gs)) as (H' & E & L & V); [now rewrite map_length|]. rewrite map_length in E.
    rewrite E. cbn [bind]. eexists. split; [reflexivity|]. rewrite map_length. split; [exact L|]. intros i c Hi Hin.
    rewrite (nth_indep _ d (assign_all widen narrow w (t_word t2) d)) by (rewrite map_length; lia). rewrite map_nth.
    unfold field_at at 1, assign_all. f_equal. now apply V. }
  destruct Hc as [E|[[E|E] _]].
  - destruct (Raw Gs Hl) as (H' & EH & L & V). rewrite E in EH, Hback, Hp, Via |- *. replace (with_word t2 (t_word t2)) with t2 in EH by (destruct t2; reflexivity).
    destruct (t_word t2) eqn:Et; cbn [tprec]; try (cbn [single double]; rewrite <- Et in *; apply Via);
      (exists H'; split; [exact EH|]; split; [exact L|]; intros i c Hi Hin; rewrite V by auto;
       unfold conv_elem; now rewrite map_id).
  - rewrite E in *. cbn [cast_back tprec] in *. rewrite Hback. apply Via.
  - rewrite E in *. cbn [cast_back tprec] in *. rewrite Hback. apply Via.
Qed.

(** A record with another number of bytes per site is refused. *)
Lemma qio_read_size {S} e lay r (put : nat -> nat -> nat -> list N -> S -> res S) datum ws s :
  r_typesize r * r_count r <> datum -> qio_read e lay r put datum ws s = Abort.
Proof. intros H. unfold qio_read. destruct (Nat.eqb_spec (r_typesize r * r_count r) datum); [contradiction|reflexivity]. Qed.

(** ** Scalars *)
Lemma fold_fset (f : nat -> elem) q : forall n F q' i, fold_left (fun F j => fset F q (0 + j) (f j)) (seq 0 n) F q' i =
  if (q' =? q) && (i <? n) then f i else F q' i.
Proof.
  induction n as [|n IH]; intros F q' i; [cbn; now rewrite andb_false_r|].
  rewrite seq_S, fold_left_app. cbn [fold_left plus]. unfold fset at 1. rewrite IH.
  destruct (Nat.eqb_spec q' q); cbn [andb]; [|reflexivity].
  destruct (Nat.eqb_spec i n) as [->|]; [destruct (Nat.ltb_spec n (S n)); [reflexivity|lia]|].
  destruct (Nat.ltb_spec i n); destruct (Nat.ltb_spec i (S n)); auto; lia.
Qed.
Lemma fold_nodes (f : nat -> elem) n : forall qs F q i, fold_left (fun F q => fold_left (fun F j => fset F q (0 + j) (f j)) (seq 0 n) F) qs F q i
  = if existsb (Nat.eqb q) qs && (i <? n) then f i else F q i.
Proof.
  induction qs as [|p qs IH]; intros F q i; [reflexivity|]. cbn [fold_left existsb]. rewrite IH, fold_fset.
  destruct (q =? p), (existsb (Nat.eqb q) qs), (i <? n); reflexivity.
Qed.

Definition scalar_words (n : nat) (F : field) : list elem := map (F 0) (seq 0 n).
Definition scalar_record (b : build) (t : ty) (n : nat) (F : field) : record :=
  mkRec Global (tprec (t_word t)) (t_colors t) (t_spins t) (sizeof t) n (build_size b) (site_bytes (wsize (t_word t)) (concat (scalar_words n F))).
Lemma scalar_words_ok t n F : scalars_ok t n F -> Forall (site_ok (wsize (t_word t)) (t_nmemb t)) (scalar_words n F).
Proof. intros H. apply Forall_forall. intros w Hw. apply in_map_iff in Hw as (i & <- & Hi). apply in_seq in Hi. apply H. lia. Qed.
Lemma scalar_words_len t n F : scalars_ok t n F -> length (concat (scalar_words n F)) = n * t_nmemb t.
Proof.
  intros H. rewrite (concat_len _ (t_nmemb t)); [unfold scalar_words; now rewrite map_length, seq_length|].
  eapply Forall_impl; [|now apply scalar_words_ok with (t := t)]. intros a [A _]. exact A.
Qed.
Lemma write_scalars_ok e b t n F : ty_ok t -> scalars_ok t n F -> write_scalars e b t n F = Val (Some (scalar_record b t n F)).
Proof.
  intros Ht HF. unfold write_scalars.
  replace (n * sizeof t) with (length (concat (scalar_words n F)) * wsize (t_word t)) by (rewrite (scalar_words_len t); auto; unfold sizeof; lia).
  apply qio_write_global; auto; [rewrite (scalar_words_len t); auto; unfold sizeof; lia|].
  unfold factory_get. destruct (Nat.leb_spec (0 + n) n); [|lia]. f_equal. rewrite <- image_concat. unfold scalar_words. now rewrite map_map.
Qed.
Lemma write_scalar_one e b t F : write_scalar e b t F = write_scalars e b t 1 F.
Proof. unfold write_scalar, write_scalars. now rewrite Nat.mul_1_l. Qed.

Lemma global_raw e lay p co sp L t n (ws : list elem) F0 : ty_ok t -> length ws = n -> Forall (site_ok (wsize (t_word t)) (t_nmemb t)) ws ->
  exists G, qio_read e lay (mkRec Global p co sp (sizeof t) n L (site_bytes (wsize (t_word t)) (concat ws)))
      (factory_put e t n) (n * sizeof t) (wsize (t_word t)) F0 = Val G /\
    forall q i, q < l_nodes lay -> i < n -> G q i = nth i ws [].
Proof.
  intros Ht Hn Hw. assert (LC : length (concat ws) = n * t_nmemb t).
  { rewrite (concat_len _ (t_nmemb t)), Hn; auto. eapply Forall_impl; [|exact Hw]. intros a [A _]. exact A. }
  unfold qio_read. cbn [r_typesize r_count r_type r_bytes]. rewrite (Nat.mul_comm (sizeof t)), Nat.eqb_refl. cbn [negb].
  destruct (Nat.ltb_spec (length (site_bytes (wsize (t_word t)) (concat ws))) (n * sizeof t)) as [X|X];
    [rewrite site_bytes_length, LC in X; unfold sizeof in X; lia|].
  rewrite firstn_all2 by (rewrite site_bytes_length, LC; unfold sizeof; lia). rewrite swap_file by auto.
  rewrite (put_nodes_ok _ (fun q F => fold_left (fun F j => fset F q (0 + j) (nth j ws [])) (seq 0 n) F)).
  - eexists. split; [reflexivity|]. intros q i Hq Hi. rewrite fold_nodes.
    replace (existsb (Nat.eqb q) (seq 0 (l_nodes lay))) with true; [cbn [andb]; destruct (Nat.ltb_spec i n); [reflexivity|lia]|].
    symmetry. apply existsb_exists. exists q. split; [apply in_seq; lia|apply Nat.eqb_refl].
  - intros q s _. unfold factory_put. rewrite image_length, LC.
    destruct (Nat.leb_spec (n * sizeof t) (wsize (t_word t) * (n * t_nmemb t))) as [|Y]; [|unfold sizeof in Y; lia].
    destruct (Nat.leb_spec (0 + n) n); [|lia]. cbn [andb]. f_equal.
    assert (G : forall l F, (forall j, In j l -> j < n) -> fold_left (fun F j => fset F q (0 + j) (elem_at e t (image e (wsize (t_word t)) (concat ws)) j)) l F
       = fold_left (fun F j => fset F q (0 + j) (nth j ws [])) l F).
    { induction l as [|j l IH]; intros F Hj; [reflexivity|]. cbn [fold_left]. rewrite elem_at_image by (auto; rewrite Hn; apply Hj; now left).
      apply IH. intros; apply Hj; now right. }
    apply G. intros j Hj. apply in_seq in Hj. lia.
Qed.

Lemma nth_scalar_words n F i : i < n -> nth i (scalar_words n F) [] = F 0 i.
Proof. intros H. unfold scalar_words. apply nth_map_seq. exact H. Qed.

Lemma read_scalars_ok e widen narrow b1 b2 t1 t2 n F junk G0 : ty_ok t1 -> same_shape t1 t2 -> compatible (t_word t1) (t_word t2) ->
  scalars_ok t1 n F ->
  exists G, read_scalars e widen narrow b2 t2 n (scalar_record b1 t1 n F) junk G0 = Val G /\
    forall q i, q < l_nodes (lay_of b2) -> i < n -> G q i = conv_elem widen narrow (t_word t1) (t_word t2) (F 0 i).
Proof.
  intros Ht Hsh Hc HF. pose proof (compatible_back _ _ Hc) as Hback. set (w := t_word t1) in *.
  set (R := scalar_record b1 t1 n F). assert (Hp : r_prec R = tprec w) by reflexivity.
  assert (Raw : forall G0, exists G, qio_read e (lay_of b2) R (factory_put e (with_word t2 w) n) (n * sizeof (with_word t2 w)) (wsize w) G0 = Val G /\
     forall q i, q < l_nodes (lay_of b2) -> i < n -> G q i = F 0 i).
  { intros G1. unfold R, scalar_record. fold w.
    replace (sizeof t1) with (sizeof (with_word t2 w)) by (unfold sizeof, with_word; cbn; fold w; now rewrite Hsh).
    destruct (global_raw e (lay_of b2) (tprec w) (t_colors t1) (t_spins t1) (build_size b1) (with_word t2 w) n (scalar_words n F) G1) as (G & E & V).
    - exact Ht.
    - unfold scalar_words. now rewrite map_length, seq_length.
    - cbn. rewrite <- Hsh. now apply scalar_words_ok.
    - exists G. split; [exact E|]. intros q i Hq Hi. rewrite V by auto. now apply nth_scalar_words. }
  unfold read_scalars. cbv zeta. rewrite Hp. clearbody R.
  assert (Via : forall G0, exists G, bind (qio_read e (lay_of b2) R (factory_put e (with_word t2 w) n) (n * sizeof (with_word t2 w)) (wsize w) G0)
       (fun fd => Val (assign_all widen narrow w (t_word t2) fd)) = Val G /\
       forall q i, q < l_nodes (lay_of b2) -> i < n -> G q i = conv_elem widen narrow w (t_word t2) (F 0 i)).
  { intros G1. destruct (Raw G1) as (G & E & V). rewrite E. cbn [bind]. eexists. split; [reflexivity|]. intros q i Hq Hi.
    unfold assign_all. f_equal. now apply V. }
  destruct Hc as [E|[[E|E] _]].
  - destruct (Raw G0) as (G & EG & V). rewrite E in EG, Hback, Hp, Via |- *. replace (with_word t2 (t_word t2)) with t2 in EG by (destruct t2; reflexivity).
    destruct (t_word t2) eqn:Et; cbn [tprec]; try (cbn [single double]; rewrite <- Et in *; apply Via);
      (exists G; split; [exact EG|]; intros q i Hq Hi; rewrite V by auto; unfold conv_elem; now rewrite map_id).
  - rewrite E in *. cbn [cast_back tprec] in *. rewrite Hback. apply Via.
  - rewrite E in *. cbn [cast_back tprec] in *. rewrite Hback. apply Via.
Qed.

(** ** Buffers *)
Lemma site_bytes_1 (l : list N) : Forall (fun v => (v < 256)%N) l -> site_bytes 1 l = l.
Proof.
  intros H. rewrite <- be_site_bytes. unfold be. induction H as [|v l Hv H IH]; [reflexivity|]. cbn [map concat]. rewrite IH.
  cbn [mem le_bytes rev app]. now rewrite N.mod_small.
Qed.
Lemma char_words (l : list N) : map (fun i => nth i l 0%N) (seq 0 (length l)) = l.
Proof.
  apply (nth_ext _ _ 0%N 0%N); rewrite map_length, seq_length; [reflexivity|]. intros i Hi. now rewrite nth_map_seq.
Qed.
Lemma buffer_ok e1 e2 b1 b2 bufs : Forall (fun v => (v < 256)%N) (bufs 0) ->
  exists r out, write_buffer e1 b1 bufs = Val (Some r) /\ r_bytes r = bufs 0 /\ read_buffer e2 b2 r = Val out /\ forall q, q < l_nodes (lay_of b2) -> out q = bufs 0.
Proof.
  intros HB. set (n := length (bufs 0)). set (F := char_field bufs).
  assert (HF : scalars_ok t_char n F).
  { intros i Hi. split; [reflexivity|]. constructor; [|constructor]. rewrite Forall_forall in HB. apply HB, nth_In. exact Hi. }
  pose proof (write_scalars_ok e1 b1 t_char n F ltac:(cbv; lia) HF) as W.
  exists (scalar_record b1 t_char n F).
  assert (EW : write_buffer e1 b1 bufs = Val (Some (scalar_record b1 t_char n F))).
  { rewrite <- W. unfold write_buffer, write_scalars. fold n. cbn [t_char sizeof t_nmemb t_word wsize tprec t_colors t_spins]. change (sizeof t_char) with 1.
    rewrite Nat.mul_1_r. reflexivity. }
  assert (EB : site_bytes 1 (concat (scalar_words n F)) = bufs 0).
  { assert (EC : concat (scalar_words n F) = bufs 0).
    { rewrite <- (char_words (bufs 0)) at 1. fold n. unfold scalar_words, F, char_field. clear. induction (seq 0 n) as [|j l IH]; [reflexivity|]. cbn. now f_equal. }
    rewrite EC. now apply site_bytes_1. }
  unfold read_buffer, scalar_record. cbn [r_count r_bytes]. change (wsize (t_word t_char)) with 1. 
  destruct (global_raw e2 (lay_of b2) (tprec (t_word t_char)) (t_colors t_char) (t_spins t_char) (build_size b1) t_char n (scalar_words n F) (fun _ _ => [0%N])
     ltac:(cbv; lia) ltac:(unfold scalar_words; now rewrite map_length, seq_length) ltac:(now apply scalar_words_ok)) as (G & EG & V).
  change (sizeof t_char) with 1 in EG. rewrite Nat.mul_1_r in EG. change (wsize (t_word t_char)) with 1 in EG.
  eexists. split; [exact EW|]. split; [exact EB|]. change (sizeof t_char) with 1. rewrite EG. cbn [bind]. split; [reflexivity|].
  intros q Hq. cbv beta. rewrite <- (char_words (bufs 0)). fold n. apply map_ext_in. intros i Hi. apply in_seq in Hi.
  rewrite V by lia. rewrite nth_scalar_words by lia. reflexivity.
Qed.

(** ** An array record read into a single lattice of the same number of bytes *)
Lemma all_sites_cons L : positive L -> exists c cs, all_sites L = c :: cs.
Proof.
  intros H. destruct (all_sites L) as [|c cs] eqn:E; [|eauto].
  pose proof (all_sites_length L) as X. rewrite E in X. cbn in X. pose proof (volume_pos L H). lia.
Qed.
Lemma array_into_site e widen narrow b1 b2 t1 t2 Fs G0 : build_ok b1 -> build_ok b2 -> build_size b1 = build_size b2 -> ty_ok t1 ->
  (forall F, In F Fs -> holds t1 b1 F) -> 2 <= length Fs -> 0 < t_nmemb t1 ->
  sizeof (with_word t2 (cast_back (t_word t1) (t_word t2))) = length Fs * sizeof t1 ->
  read_lattice e widen narrow b2 t2 (array_record b1 t1 Fs) G0 = Undef.
Proof.
  intros Hb1 Hb2 Hs Ht HF Hn Hm Hsz.
  assert (U : forall t' ws S0, sizeof t' = length Fs * sizeof t1 -> (forall bs, length (swap_words e ws bs) <= length bs) ->
    qio_read e (lay_of b2) (array_record b1 t1 Fs) (factory_put e t' (l_sites (lay_of b2))) (sizeof t') ws S0 = Undef).
  { intros t' ws S0 Hst Hsw. unfold qio_read, array_record. cbn [r_typesize r_count r_type r_latsize r_bytes].
    rewrite Hst, (Nat.mul_comm (sizeof t1)), Nat.eqb_refl. cbn [negb]. change (l_size (lay_of b2)) with (build_size b2). rewrite Hs.
    destruct (list_eq_dec Nat.eq_dec (build_size b2) (build_size b2)); [|congruence]. cbn [record_sites].
    destruct (all_sites_cons (build_size b2)) as (c & cs & E); [now apply size_ok|]. rewrite E. cbn [map concat put_sites fst snd].
    assert (Hc : in_lattice (build_size b1) c) by (rewrite Hs; apply all_sites_in; rewrite E; now left).
    assert (LB : length (site_bytes (wsize (t_word t1)) (concat (site_values b1 Fs c))) = length Fs * sizeof t1).
    { rewrite site_bytes_length, (site_values_len b1 t1) by auto. unfold sizeof. lia. }
    match goal with |- context [?a <? ?b] => destruct (Nat.ltb_spec a b) as [X|X] end; [rewrite app_length, LB in X; lia|].
    rewrite firstn_app_l by exact LB. unfold factory_put at 1.
    assert (0 < sizeof t1) by (unfold sizeof; apply Nat.mul_pos_pos; [exact Hm|exact Ht]).
    match goal with |- context [?a <=? ?b] => destruct (Nat.leb_spec a b) as [Y|Y] end; [|reflexivity]. exfalso.
    pose proof (Hsw (site_bytes (wsize (t_word t1)) (concat (site_values b1 Fs c)))) as Z. rewrite LB in Z. rewrite Hst in Y.
    assert (length Fs * (length Fs * sizeof t1) <= length Fs * sizeof t1) by lia. nia. }
  assert (SW : forall ws bs, 0 < ws -> length (swap_words e ws bs) <= length bs).
  { intros ws bs Hws. unfold swap_words. destruct e; [lia|].
    assert (G : forall k a, length (concat (map (fun j => rev (firstn ws (skipn (j * ws) bs))) (seq a k))) <= k * ws).
    { induction k as [|k IH]; intros a; [cbn; lia|]. cbn [seq map concat]. rewrite app_length, rev_length, firstn_length. specialize (IH (S a)). lia. }
    etransitivity; [apply G|]. rewrite Nat.mul_comm. apply Nat.mul_div_le. lia. }
  unfold read_lattice. cbv zeta. cbn [array_record r_prec].
  assert (Hw : 0 < wsize (cast_back (t_word t1) (t_word t2))).
  { unfold sizeof in Hsz at 1. cbn in Hsz. destruct (wsize (cast_back (t_word t1) (t_word t2))); [|lia].
    rewrite Nat.mul_0_r in Hsz. unfold sizeof in Hsz. unfold ty_ok in Ht. assert (0 < length Fs * (t_nmemb t1 * wsize (t_word t1))) by (repeat apply Nat.mul_pos_pos; lia). lia. }
  destruct (t_word t1) eqn:E1; cbn [tprec cast_back] in *;
    try (rewrite U by auto; reflexivity); replace (with_word t2 (t_word t2)) with t2 in Hsz by (destruct t2; reflexivity); now apply U; auto.
Qed.

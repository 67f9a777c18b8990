(** Proofs about records in QIO files. *)
From Coq Require Import List Arith NArith Bool Lia.
From Verif Require Import Base LayoutModel LayoutSpec LayoutProofs LayoutOk CrcModel SwapProofs IoModel IoSpec IoProofs LatIoModel LatIoSpec LatIoProofs LatIoOk
  IoNodeProofs QioModel QioSpec.
Import ListNotations.
Local Open Scope nat_scope.

Section P.
Variable e : endian.

Lemma rev_mem_be ws v : rev (mem LittleE ws v) = mem BigE ws v.
Proof. reflexivity. Qed.
Lemma rev_be_mem ws v : rev (mem BigE ws v) = mem LittleE ws v.
Proof. cbn [mem]. apply rev_involutive. Qed.

(** Reversing the words of an image. *)
Lemma swap_concat (f g : N -> list N) ws w : 0 < ws -> (forall v, length (f v) = ws) -> (forall v, rev (f v) = g v) ->
  concat (map (fun j => rev (firstn ws (skipn (j * ws) (concat (map f w))))) (seq 0 (length (concat (map f w)) / ws)))
  = concat (map g w).
Proof.
  intros Hws Hl Hr. f_equal.
  assert (L : length (concat (map f w)) = length w * ws) by (clear - Hl; induction w; cbn; [lia|rewrite app_length, IHw, Hl; lia]).
  rewrite L, Nat.div_mul by lia.
  assert (G : forall a pre, length pre = a * ws ->
    map (fun j => rev (firstn ws (skipn (j * ws) (pre ++ concat (map f w))))) (seq a (length w)) = map g w).
  { clear L. induction w as [|v w IH]; intros a pre HP; [reflexivity|]. cbn [length seq map concat]. f_equal.
    - rewrite skipn_app_l by lia. rewrite firstn_app_l by apply Hl. apply Hr.
    - specialize (IH (S a) (pre ++ f v)). rewrite <- !app_assoc in IH. apply IH. rewrite app_length, Hl. lia. }
  apply (G 0 []). reflexivity.
Qed.
Lemma swap_image ws w : 0 < ws -> swap_words e ws (image e ws w) = site_bytes ws w.
Proof.
  intros H. rewrite <- be_site_bytes. unfold swap_words, be. destruct e; [reflexivity|]. unfold image.
  apply swap_concat; auto. intros. apply mem_length.
Qed.
Lemma swap_file ws w : 0 < ws -> swap_words e ws (site_bytes ws w) = image e ws w.
Proof.
  intros H. rewrite <- be_site_bytes. unfold swap_words, be. destruct e; [reflexivity|]. unfold image.
  apply swap_concat; auto; intros; [apply mem_length|apply rev_be_mem].
Qed.
Lemma site_bytes_length ws w : length (site_bytes ws w) = length w * ws.
Proof. rewrite <- be_site_bytes. unfold be. rewrite concat_words_length. lia. Qed.
Lemma site_bytes_concat ws (l : list elem) : concat (map (site_bytes ws) l) = site_bytes ws (concat l).
Proof. unfold site_bytes. induction l as [|w l IH]; [reflexivity|]. cbn [map concat]. now rewrite IH, map_app, concat_app. Qed.
Lemma image_concat ws (l : list elem) : concat (map (image e ws) l) = image e ws (concat l).
Proof. apply concat_images. Qed.

(** ** Writing *)
Lemma mapM_map {A B} (f : A -> res B) (g : A -> B) l : (forall a, In a l -> f a = Val (g a)) -> mapM f l = Val (map g l).
Proof. apply mapM_val. Qed.

Lemma forallb_lengths (l : list (list nat)) (g : list nat -> list N) n :
  (forall c, In c l -> length (g c) = n) -> forallb (fun b => length b =? n) (map g l) = true.
Proof. intros H. apply forallb_forall. intros b Hb. apply in_map_iff in Hb as (c & <- & Hc). apply Nat.eqb_eq. auto. Qed.

Lemma qio_write_sites lay t p co sp ts count get ws nm (v : list nat -> elem) : t <> Global -> 0 < ws ->
  ts * count = nm * ws ->
  (forall c, In c (record_sites (l_size lay) t) -> get (l_node lay c) (l_lin lay c) count = Val (image e ws (v c)) /\ length (v c) = nm) ->
  qio_write e lay t p co sp ts count get (nm * ws) ws =
  Val (Some (mkRec t p co sp ts count (l_size lay) (concat (map (fun c => site_bytes ws (v c)) (record_sites (l_size lay) t))))).
Proof.
  intros Ht Hws Hd H. unfold qio_write. rewrite Hd, Nat.eqb_refl. cbn [negb].
  replace (match t with Global => mapM (fun _ : unit => get 0 0 count) [tt] | _ => _ end)
    with (mapM (fun c => get (l_node lay c) (l_lin lay c) count) (record_sites (l_size lay) t)) by (destruct t; congruence).
  rewrite (mapM_map _ (fun c => image e ws (v c))) by (intros; now apply H). cbn [bind].
  rewrite (forallb_lengths _ (fun c => image e ws (v c))) by (intros c Hc; rewrite image_length; destruct (H c Hc) as [_ ->]; lia).
  do 3 f_equal. f_equal. rewrite map_map. apply map_ext. intros. now apply swap_image.
Qed.

Lemma qio_write_global lay p co sp ts count get ws (w : elem) : 0 < ws -> ts * count = length w * ws ->
  get 0 0 count = Val (image e ws w) ->
  qio_write e lay Global p co sp ts count get (length w * ws) ws =
  Val (Some (mkRec Global p co sp ts count (l_size lay) (site_bytes ws w))).
Proof.
  intros Hws Hd H. unfold qio_write. rewrite Hd, Nat.eqb_refl. cbn [negb mapM]. rewrite H. cbn [bind forallb].
  rewrite image_length, (Nat.mul_comm ws), Nat.eqb_refl. cbn [andb map concat]. rewrite app_nil_r, swap_image by auto. reflexivity.
Qed.

(** ** Reading *)
Lemma put_sites_ok {S} (put : nat -> nat -> nat -> list N -> S -> res S) (up : list nat -> S -> S) (I : S -> Prop)
    lay count ws nm (v : list nat -> elem) : 0 < ws -> forall cs s, I s ->
  (forall c s, In c cs -> I s -> put (l_node lay c) (l_lin lay c) count (image e ws (v c)) s = Val (up c s)
     /\ length (v c) = nm /\ I (up c s)) ->
  put_sites e put (map (fun c => (l_node lay c, l_lin lay c)) cs) count (nm * ws) ws (concat (map (fun c => site_bytes ws (v c)) cs)) s
  = Val (fold_left (fun s c => up c s) cs s).
Proof.
  intros Hws. induction cs as [|c cs IH]; intros s Is H; [reflexivity|]. cbn [map concat put_sites fst snd fold_left].
  destruct (H c s (or_introl eq_refl) Is) as (P & L & I').
  assert (LB : length (site_bytes ws (v c)) = nm * ws) by now rewrite site_bytes_length, L.
  destruct (Nat.ltb_spec (length (site_bytes ws (v c) ++ concat (map (fun c => site_bytes ws (v c)) cs))) (nm * ws)) as [X|X];
    [rewrite app_length, LB in X; lia|].
  rewrite firstn_app_l by exact LB. rewrite skipn_app_l by exact LB. rewrite swap_file, P by auto. cbn [bind].
  apply IH; auto. intros. apply H; [now right|auto].
Qed.

Lemma qio_read_sites {S} (put : nat -> nat -> nat -> list N -> S -> res S) up (I : S -> Prop) lay t p co sp ts count ws nm (v : list nat -> elem) s :
  t <> Global -> 0 < ws -> ts * count = nm * ws -> I s ->
  (forall c s, In c (record_sites (l_size lay) t) -> I s ->
     put (l_node lay c) (l_lin lay c) count (image e ws (v c)) s = Val (up c s)
     /\ length (v c) = nm /\ I (up c s)) ->
  qio_read e lay (mkRec t p co sp ts count (l_size lay) (concat (map (fun c => site_bytes ws (v c)) (record_sites (l_size lay) t))))
    put (nm * ws) ws s
  = Val (fold_left (fun s c => up c s) (record_sites (l_size lay) t) s).
Proof.
  intros Ht Hws Hd Is H. unfold qio_read. cbn [r_typesize r_count r_type r_latsize r_bytes]. rewrite Hd, Nat.eqb_refl. cbn [negb].
  destruct (list_eq_dec Nat.eq_dec (l_size lay) (l_size lay)); [|congruence].
  destruct t; [congruence| |]; now apply (put_sites_ok put up I).
Qed.

Lemma put_nodes_ok {S} (put : nat -> nat -> nat -> list N -> S -> res S) (up : nat -> S -> S) count buf : forall qs s,
  (forall q s, In q qs -> put q 0 count buf s = Val (up q s)) ->
  put_nodes put qs count buf s = Val (fold_left (fun s q => up q s) qs s).
Proof.
  induction qs as [|q qs IH]; intros s H; [reflexivity|]. cbn [put_nodes fold_left]. rewrite H by now left. cbn [bind].
  apply IH. intros; apply H. now right.
Qed.

Lemma fold_fill lay (v : list nat -> elem) : forall cs F,
  fold_left (fun s c => fset s (l_node lay c) (l_lin lay c) (v c)) cs F = fill F (map (place lay) cs) (map v cs).
Proof. induction cs as [|c cs IH]; intros F; [reflexivity|]. cbn [fold_left map fill place fst snd]. apply IH. Qed.

(** Writing one element per site with count 1. *)
Lemma put_one t n q i w F : ty_ok t -> site_ok (wsize (t_word t)) (t_nmemb t) w -> i < n ->
  factory_put e t n q i 1 (image e (wsize (t_word t)) w) F = Val (fset F q i w).
Proof.
  intros Ht Hw Hi. pose proof (unimage_image e _ _ w [] Hw) as U. rewrite app_nil_r in U.
  unfold factory_put. rewrite image_length. destruct Hw as [L _]. unfold sizeof.
  destruct (Nat.leb_spec (1 * (t_nmemb t * wsize (t_word t))) (wsize (t_word t) * length w)); [|rewrite L in *; lia].
  destruct (Nat.leb_spec (i + 1) n); [|lia]. cbn [andb seq fold_left]. unfold elem_at. rewrite Nat.add_0_r. cbn [Nat.mul skipn].
  now rewrite U.
Qed.
Lemma get_one t n (F : field) q i : i < n -> factory_get e t n F q i 1 = Val (image e (wsize (t_word t)) (F q i)).
Proof.
  intros H. unfold factory_get. destruct (Nat.leb_spec (i + 1) n); [|lia]. cbn [seq map concat]. now rewrite app_nil_r, Nat.add_0_r.
Qed.

Lemma lin_lt b c : build_ok b -> in_lattice (build_size b) c -> l_lin (lay_of b) c < l_sites (lay_of b).
Proof. intros Hb Hc. destruct (lay_ok b Hb) as (_ & _ & B & _). apply (B c Hc). Qed.

Lemma in_box_cube lo hi c : length lo = length c -> length hi = length c -> (in_box lo hi c = true <-> in_cube lo hi c).
Proof.
  intros L1 L2. unfold in_box, in_cube. rewrite forallb_forall. split.
  - intros H. repeat split; auto; specialize (H mu ltac:(apply in_seq; lia)); apply andb_prop in H as [A B]; apply Nat.leb_le in A, B; lia.
  - intros (_ & _ & H) mu Hm. apply in_seq in Hm. specialize (H mu ltac:(lia)). apply andb_true_intro. split; apply Nat.leb_le; lia.
Qed.

Lemma record_sites_in L t c : In c (record_sites L t) -> in_lattice L c.
Proof. destruct t; cbn; intros H; [| |apply filter_In in H as [H _]]; now apply all_sites_in. Qed.
Lemma record_sites_nodup L t : NoDup (record_sites L t).
Proof. destruct t; cbn; try apply NoDup_filter; apply all_sites_nodup. Qed.
Lemma places_ok b t : build_ok b -> NoDup (map (place (lay_of b)) (record_sites (build_size b) t)).
Proof.
  intros Hb. apply NoDup_map_in; [apply record_sites_nodup|]. intros x y Hx Hy E. apply record_sites_in in Hx, Hy.
  now apply (place_inj b).
Qed.

Definition field_record (b : build) (rt : rtype) (t : ty) (F : field) : record :=
  mkRec rt (tprec (t_word t)) (t_colors t) (t_spins t) (sizeof t) 1 (build_size b)
    (concat (map (fun c => site_bytes (wsize (t_word t)) (field_at b F c)) (record_sites (build_size b) rt))).

Lemma write_sites_ok b rt t F : build_ok b -> ty_ok t -> holds t b F -> rt <> Global ->
  qio_write e (lay_of b) rt (tprec (t_word t)) (t_colors t) (t_spins t) (sizeof t) 1
      (factory_get e t (l_sites (lay_of b)) F) (sizeof t) (wsize (t_word t)) = Val (Some (field_record b rt t F)).
Proof.
  intros Hb Ht HF Hrt. apply (qio_write_sites _ _ _ _ _ _ _ _ _ (t_nmemb t) (field_at b F)); auto; [unfold sizeof; lia|].
  intros c Hc. apply record_sites_in in Hc. split; [|now apply HF]. apply get_one. now apply lin_lt.
Qed.
End P.

(** The effect of reading a record of words of size [ws] into elements of type [t']. *)
Lemma read_raw e b rt t p co sp F (v : list nat -> elem) : build_ok b -> ty_ok t -> rt <> Global ->
  (forall c, In c (record_sites (build_size b) rt) -> site_ok (wsize (t_word t)) (t_nmemb t) (v c)) ->
  qio_read e (lay_of b) (mkRec rt p co sp (sizeof t) 1 (build_size b)
      (concat (map (fun c => site_bytes (wsize (t_word t)) (v c)) (record_sites (build_size b) rt))))
    (factory_put e t (l_sites (lay_of b))) (sizeof t) (wsize (t_word t)) F
  = Val (fill F (map (place (lay_of b)) (record_sites (build_size b) rt)) (map v (record_sites (build_size b) rt))).
Proof.
  intros Hb Ht Hrt Hv. rewrite <- fold_fill.
  apply (qio_read_sites e _ (fun c F => fset F (l_node (lay_of b) c) (l_lin (lay_of b) c) (v c)) (fun _ => True)); auto; [unfold sizeof; lia|].
  intros c s Hc _. split; [|split; auto; now apply Hv]. apply put_one; auto. apply lin_lt; auto. now apply record_sites_in in Hc.
Qed.

Lemma fill_at b rt F (v : list nat -> elem) c : build_ok b -> in_lattice (build_size b) c ->
  let G := fill F (map (place (lay_of b)) (record_sites (build_size b) rt)) (map v (record_sites (build_size b) rt)) in
  (In c (record_sites (build_size b) rt) -> field_at b G c = v c) /\
  (~ In c (record_sites (build_size b) rt) -> field_at b G c = field_at b F c).
Proof.
  intros Hb Hc G. split; intros H; unfold field_at, G.
  - apply (fill_hit v (lay_of b)); auto. now apply places_ok.
  - apply fill_other. intros X. apply in_map_iff in X as (d & E & Hd). apply H.
    replace c with d; [auto|]. apply (place_inj b); auto. now apply record_sites_in in Hd.
Qed.

Definition cast_back (w1 w2 : wt) : wt := match w1 with Float => single w2 | Double => double w2 | _ => w2 end.
Lemma compatible_back w1 w2 : compatible w1 w2 -> cast_back w1 w2 = w1.
Proof. intros [->|[[->| ->] [->| ->]]]; try reflexivity. destruct w2; reflexivity. Qed.

(** Reading what was written, inside and outside of the record's sites; words of the same size. *)
Lemma read_sites_gen e widen narrow b1 b2 rt t1 t2 F G0 : build_ok b1 -> build_ok b2 -> build_size b1 = build_size b2 -> ty_ok t1 ->
  same_shape t1 t2 -> wsize (cast_back (t_word t1) (t_word t2)) = wsize (t_word t1) -> holds t1 b1 F -> rt <> Global ->
  exists G, read_lattice e widen narrow b2 t2 (field_record b1 rt t1 F) G0 = Val G /\
    forall c, in_lattice (build_size b2) c ->
      (In c (record_sites (build_size b1) rt) -> field_at b2 G c = conv_elem widen narrow (cast_back (t_word t1) (t_word t2)) (t_word t2) (field_at b1 F c)) /\
      (~ In c (record_sites (build_size b1) rt) ->
        (floating (t_word t1) -> field_at b2 G c = conv_elem widen narrow (cast_back (t_word t1) (t_word t2)) (t_word t2) (repeat 0%N (t_nmemb t2))) /\
        (~ floating (t_word t1) -> field_at b2 G c = field_at b2 G0 c)).
Proof.
  intros Hb1 Hb2 Hs Ht Hsh Hc HF Hrt. set (w := cast_back (t_word t1) (t_word t2)) in *.
  set (v := field_at b1 F). set (R := field_record b1 rt t1 F).
  assert (Hp : r_prec R = tprec (t_word t1)) by reflexivity. rewrite Hs.
  assert (Raw : forall F0, qio_read e (lay_of b2) R
      (factory_put e (with_word t2 w) (l_sites (lay_of b2))) (sizeof (with_word t2 w)) (wsize w) F0
    = Val (fill F0 (map (place (lay_of b2)) (record_sites (build_size b2) rt)) (map v (record_sites (build_size b2) rt)))).
  { intros F0. unfold R, field_record. rewrite Hs, <- Hc.
    replace (sizeof t1) with (sizeof (with_word t2 w)) by (unfold sizeof, with_word; cbn; now rewrite Hsh, Hc).
    apply (read_raw e b2 rt (with_word t2 w)); auto; [unfold ty_ok; cbn; now rewrite Hc|].
    intros c Hin. cbn. rewrite <- Hsh, Hc. apply HF. rewrite Hs. now apply record_sites_in in Hin. }
  unfold read_lattice. cbv zeta. rewrite Hp. clearbody R.
  assert (Nofl : forall w, w = Float \/ w = Double \/ ~ floating w /\ (tprec w = PI \/ tprec w = PU)).
  { intros [| | |s]; auto; right; right; split; auto; intros [X|X]; discriminate. }
  destruct (Nofl (t_word t1)) as [E|[E|[NF Ep]]].
  1,2: (assert (Ew : w = cast_back (t_word t1) (t_word t2)) by reflexivity); clearbody w; rewrite E in *; cbn [cast_back tprec] in *; rewrite <- Ew in *; rewrite Raw; cbn [bind]; eexists; split; [reflexivity|]; intros c Hin;
    destruct (fill_at b2 rt (zero_field (with_word t2 w)) v c Hb2 Hin) as [A B]; split;
    [intros X; unfold field_at at 1, assign_all; f_equal; now apply A|];
    intros X; split; [intros _; unfold field_at at 1, assign_all; f_equal; now apply B|];
    intros Y; destruct Y; unfold floating; auto.
  - assert (Ew : w = t_word t2) by (unfold w; destruct (t_word t1); try reflexivity; destruct NF; unfold floating; auto).
    clearbody w. subst w. assert (E2 : with_word t2 (t_word t2) = t2) by (destruct t2; reflexivity). rewrite E2 in Raw.
    eexists. split.
    { destruct Ep as [-> | ->]; apply Raw. }
    intros c Hin. destruct (fill_at b2 rt G0 v c Hb2 Hin) as [A B]. split.
    + intros X. rewrite A by auto. fold v. unfold conv_elem. rewrite <- (map_id (v c)) at 1. apply map_ext.
      intros a. destruct (t_word t2); reflexivity.
    + intros X. rewrite B by auto. split; [tauto|reflexivity].
Qed.

Lemma read_sites_ok e widen narrow b1 b2 rt t1 t2 F G0 : build_ok b1 -> build_ok b2 -> build_size b1 = build_size b2 -> ty_ok t1 ->
  same_shape t1 t2 -> compatible (t_word t1) (t_word t2) -> holds t1 b1 F -> rt <> Global ->
  exists G, read_lattice e widen narrow b2 t2 (field_record b1 rt t1 F) G0 = Val G /\
    forall c, in_lattice (build_size b2) c ->
      (In c (record_sites (build_size b1) rt) -> field_at b2 G c = conv_elem widen narrow (t_word t1) (t_word t2) (field_at b1 F c)) /\
      (~ In c (record_sites (build_size b1) rt) ->
        (floating (t_word t1) -> field_at b2 G c = conv_elem widen narrow (t_word t1) (t_word t2) (repeat 0%N (t_nmemb t2))) /\
        (~ floating (t_word t1) -> field_at b2 G c = field_at b2 G0 c)).
Proof.
  intros Hb1 Hb2 Hs Ht Hsh Hc HF Hrt. pose proof (compatible_back _ _ Hc) as Hback.
  pose proof (read_sites_gen e widen narrow b1 b2 rt t1 t2 F G0 Hb1 Hb2 Hs Ht Hsh) as H. rewrite Hback in H. now apply H.
Qed.

(** The functions of the interface for lattice input and output. *)
From Coq Require Import List Arith NArith ZArith Bool Lia.
From Coq Require Import ZifyBool ZifyNat ZifyN.
From Verif Require Import Base LayoutModel LayoutSpec LayoutProofs LayoutOk SetModel SetProofs
  CrcModel CrcSpec CrcProofs SwapProofs IoModel IoSpec IoProofs LatIoModel LatIoSpec LatIoProofs.
Import ListNotations.
Local Open Scope nat_scope.
Ltac Zify.zify_post_hook ::= Z.div_mod_to_equations.
Local Arguments crc32 : simpl never.

(** ** Streams *)
Lemma emit_wrote bs st : writable st -> wrote bs st (emit bs st).
Proof.
  intros (F & C & P). destruct (emit_fields bs st F) as (E1 & E2 & E3 & E4 & E5 & E6). unfold wrote, writable.
  rewrite E1, E2, E3, E4, E5, E6, overwrite_data by exact P. repeat split; auto.
  - intros ->. reflexivity.
  - rewrite !app_length, firstn_length. rewrite skipn_length. lia.
Qed.
Lemma readable_ready bs st : readable bs st -> exists rest, ready st (bs ++ rest).
Proof.
  intros (F & C & P & rest & E). exists rest. split; [exact F|]. split; [exact C|]. exists (firstn (s_get st) (s_data st)).
  rewrite <- E, firstn_skipn, firstn_length. split; [reflexivity|lia].
Qed.
Lemma consume_read bs st : was_read bs st (consume bs st).
Proof. unfold was_read, consume, add_crc, with_crc, at_get. destruct st. cbn. auto. Qed.
Lemma be_sites size b F cs : concat (map (fun c => be size (field_at b F c)) cs) = sites_bytes size b F cs.
Proof. unfold sites_bytes. f_equal. apply map_ext. intros c. apply be_site_bytes. Qed.

(** ** Selected ranges *)
Definition v_bytes (size : nat) (v : list nat -> elem) (cs : list (list nat)) : list N := concat (map (fun c => site_bytes size (v c)) cs).

Lemma gen_write_top e size nmemb b sel P F start stop st : swappable size -> build_ok b -> strip_room b (size * nmemb) ->
  start <= stop <= volume (build_size b) -> aligned b start stop -> sel_spec b sel P -> field_ok size nmemb b F -> writable st ->
  exists st', gen_write e size nmemb b sel F start stop st = Val st' /\ wrote (sites_bytes size b F (coords b P start stop)) st st'.
Proof.
  intros. destruct H6 as (W1 & W2 & W3). rewrite (gen_write_ok e size nmemb b sel P) by assumption. rewrite be_sites.
  eexists. split; [reflexivity|]. apply emit_wrote. unfold writable. auto.
Qed.
Lemma coords_in b P start stop c : build_ok b -> stop <= volume (build_size b) -> In c (coords b P start stop) -> in_lattice (build_size b) c.
Proof.
  intros HB Hs H. apply filter_In in H as [H _]. apply in_map_iff in H as (n & <- & Hn). apply in_seq in Hn. apply crt_in; auto. lia.
Qed.
Lemma gen_read_top e size nmemb b sel P F start stop v st : swappable size -> build_ok b ->
  start <= stop <= volume (build_size b) -> aligned b start stop -> sel_spec b sel P ->
  (forall c, In c (coords b P start stop) -> site_ok size nmemb (v c)) -> readable (v_bytes size v (coords b P start stop)) st ->
  exists G st', gen_read e size nmemb b sel F start stop st = Val (G, st') /\
    (forall c, In c (coords b P start stop) -> field_at b G c = v c) /\
    (forall c, in_lattice (build_size b) c -> ~ In c (coords b P start stop) -> field_at b G c = field_at b F c) /\
    was_read (v_bytes size v (coords b P start stop)) st st'.
Proof.
  intros Hs HB Hr HA HS HV HR. set (cs := coords b P start stop) in *. destruct (readable_ready _ _ HR) as [rest R].
  assert (E : v_bytes size v cs = concat (map (be size) (map v cs))).
  { unfold v_bytes. rewrite map_map. f_equal. apply map_ext. intros c. symmetry. apply be_site_bytes. }
  rewrite E in *. rewrite (gen_read_ok e size nmemb b sel P F start stop (map v cs) rest); auto.
  2:{ now rewrite map_length. }
  2:{ apply Forall_forall. intros w Hw. apply in_map_iff in Hw as (c & <- & Hc). now apply HV. }
  eexists. eexists. split; [reflexivity|]. split; [|split; [|apply consume_read]].
  - intros c Hc. unfold field_at. apply fill_hit; [|exact Hc]. apply places_nodup; [exact HB|lia].
  - intros c Hc NI. unfold field_at. apply fill_other. intros X. apply in_map_iff in X as (d & X & Hd). apply NI.
    replace c with d; [exact Hd|]. apply (place_inj b); auto. apply (coords_in b P start stop); [exact HB|lia|exact Hd].
Qed.

Lemma aligned_lex b start stop : build_ok b -> build_kind b <> CB3D -> start <= stop <= volume (build_size b) ->
  match b with Single _ _ => True | Multi _ _ M L => Nat.divide (xinc_of M L) start /\ Nat.divide (xinc_of M L) stop end ->
  aligned b start stop.
Proof.
  intros HB HK Hr HD. destruct b as [k L|grid k M L]; cbn [aligned]; [exact I|]. destruct HD as [D1 D2]. split; [exact D1|]. split; [exact D2|].
  intros s Hs. destruct (xinc_spec k M L HB) as (_ & Hx & _ & _).
  destruct (strips_flat start stop (xinc_of M L) Hx ltac:(lia) D1 D2) as [_ S2]. destruct (S2 s Hs) as (A & _ & B).
  apply (local_lex grid); auto. cbn in Hr. lia.
Qed.
Lemma all_divides b : build_ok b ->
  match b with Single _ _ => True | Multi _ _ M L => Nat.divide (xinc_of M L) 0 /\ Nat.divide (xinc_of M L) (volume (build_size b)) end.
Proof.
  intros HB. destruct b as [k L|grid k M L]; [exact I|]. split; [exists 0; reflexivity|]. now destruct (xinc_spec k M L HB) as (_ & _ & _ & D).
Qed.
Lemma aligned_t b : build_ok b -> build_kind b = CB3D -> runs_on_one_node b -> aligned b 0 (volume (build_size b)).
Proof.
  intros HB HK HR. pose proof (all_divides b HB) as HD. destruct b as [k L|grid k M L]; cbn [aligned]; [exact I|].
  destruct HD as [D1 D2]. split; [exact D1|]. split; [exact D2|].
  destruct (xinc_spec k M L HB) as (Ex & Hx & _ & _).
  destruct (strips_flat 0 _ (xinc_of M L) Hx ltac:(lia) D1 D2) as [_ S2].
  intros s Hs. destruct (S2 s Hs) as ([j Hj] & _ & B). intros i Hi. cbn [runs_on_one_node] in HR. rewrite <- Ex in HR.
  pose proof (crt_order _ HB) as E. rewrite HK in E. cbn [file_order] in E.
  cbn [build_size build_kind lay_of par_layout l_size l_kind] in *.
  assert (N : forall n, n < volume L -> nth_error (all_sites_t L) n = Some (crt (par_layout k M L) n)).
  { intros n Hn. rewrite <- E. apply map_nth_error. rewrite nth_error_nth' with (d := 0) by (rewrite seq_length; exact Hn).
    f_equal. rewrite seq_nth by exact Hn. lia. }
  apply (HR j i); [exact Hi| |]; rewrite <- Hj; apply N; lia.
Qed.

Lemma coords_all b P : build_ok b -> coords b P 0 (volume (build_size b)) = filter P (file_order (build_kind b) (build_size b)).
Proof. intros HB. unfold coords. rewrite Nat.sub_0_r. now rewrite crt_order. Qed.
Lemma filter_true {A} (l : list A) : filter (fun _ => true) l = l.
Proof. induction l as [|x l IH]; [reflexivity|]. cbn [filter]. now rewrite IH. Qed.

Lemma write_lattice_gen e size nmemb b F st :
  write_lattice e size nmemb b F st = gen_write e size nmemb b (fun _ _ => true) F 0 (volume (build_size b)) st.
Proof. destruct b; cbn [write_lattice gen_write build_size lay_of l_size scalar_layout par_layout]; rewrite vol_volume, ?Nat.sub_0_r; reflexivity. Qed.
Lemma read_lattice_gen e size nmemb b F st :
  read_lattice e size nmemb b F st = gen_read e size nmemb b (fun _ _ => true) F 0 (volume (build_size b)) st.
Proof. destruct b; cbn [read_lattice gen_read build_size lay_of l_size scalar_layout par_layout]; rewrite vol_volume, ?Nat.sub_0_r; reflexivity. Qed.
Lemma write_subset_gen e size nmemb b colours color F st : write_subset e size nmemb b colours color F st
  = gen_write e size nmemb b (fun q i => get (colours q) i =? color) F 0 (volume (build_size b)) st.
Proof. destruct b; cbn [write_subset gen_write build_size lay_of l_size scalar_layout par_layout]; rewrite vol_volume, ?Nat.sub_0_r; reflexivity. Qed.
Lemma read_subset_gen e size nmemb b colours color F st : read_subset e size nmemb b colours color F st
  = gen_read e size nmemb b (fun q i => get (colours q) i =? color) F 0 (volume (build_size b)) st.
Proof. destruct b; cbn [read_subset gen_read build_size lay_of l_size scalar_layout par_layout]; rewrite vol_volume, ?Nat.sub_0_r; reflexivity. Qed.

(** ** Whole lattices *)
Definition plain (b : build) : Prop := build_kind b <> CB3D \/ runs_on_one_node b.
Lemma plain_aligned b : build_ok b -> plain b -> aligned b 0 (volume (build_size b)).
Proof.
  intros HB HP. assert (D : {build_kind b = CB3D} + {build_kind b <> CB3D}) by (destruct (build_kind b); (left; reflexivity) + (right; discriminate)).
  destruct D as [D|D].
  - destruct HP as [HP|HP]; [congruence|]. now apply aligned_t.
  - apply aligned_lex; auto; [lia|]. apply all_divides, HB.
Qed.
Lemma write_lattice_ok e size nmemb b F st : swappable size -> build_ok b -> plain b -> strip_room b (size * nmemb) ->
  field_ok size nmemb b F -> writable st ->
  exists st', write_lattice e size nmemb b F st = Val st' /\
    wrote (sites_bytes size b F (file_order (build_kind b) (build_size b))) st st'.
Proof.
  intros Hs HB HP HR HF HW. rewrite write_lattice_gen.
  destruct (gen_write_top e size nmemb b (fun _ _ => true) (fun _ => true) F 0 (volume (build_size b)) st) as (st' & E & W); auto.
  - lia.
  - now apply plain_aligned.
  - intros c _. reflexivity.
  - exists st'. rewrite coords_all, filter_true in W by exact HB. auto.
Qed.
Lemma file_order_in k L c : 0 < length L -> (In c (file_order k L) <-> in_lattice L c).
Proof.
  intros H. assert (L <> []) by (destruct L; cbn in *; [lia|discriminate]).
  destruct k; cbn [file_order]; try apply all_sites_in. now apply all_sites_t_in.
Qed.
Lemma read_lattice_ok e size nmemb b F v st : swappable size -> build_ok b -> plain b ->
  (forall c, in_lattice (build_size b) c -> site_ok size nmemb (v c)) ->
  readable (v_bytes size v (file_order (build_kind b) (build_size b))) st ->
  exists G st', read_lattice e size nmemb b F st = Val (G, st') /\
    (forall c, in_lattice (build_size b) c -> field_at b G c = v c) /\
    was_read (v_bytes size v (file_order (build_kind b) (build_size b))) st st'.
Proof.
  intros Hs HB HP HV HR. rewrite read_lattice_gen. destruct (size_ok b HB) as [Hn _].
  pose proof (coords_all b (fun _ => true) HB) as EC. rewrite filter_true in EC.
  destruct (gen_read_top e size nmemb b (fun _ _ => true) (fun _ => true) F 0 (volume (build_size b)) v st) as (G & st' & E & A & B & W); auto.
  - lia.
  - now apply plain_aligned.
  - intros c _. reflexivity.
  - intros c Hc. rewrite EC in Hc. apply HV. now apply file_order_in in Hc.
  - now rewrite EC.
  - rewrite EC in *. exists G, st'. split; [exact E|]. split; [|exact W]. intros c Hc. apply A. now apply file_order_in.
Qed.

(** ** Subsets *)
Lemma colouring_sel b num colour colours color : build_ok b -> colouring b num colour colours ->
  sel_spec b (fun q i => get (colours q) i =? color) (fun c => (colour c =? Z.of_nat color)%Z).
Proof.
  intros HB HC c Hc. destruct (lay_ok b HB) as (_ & _ & B1 & _). destruct (B1 c Hc) as [[Hq Hi] Ec]. cbn [fst snd] in *.
  specialize (HC _ Hq). unfold lat_color in HC. apply mapM_Val_inv in HC.
  assert (G : forall l xs j, Forall2 (fun a x => site_colour (lay_of b) (l_node (lay_of b) c) {| sf_num := num; sf_col := fun c => Val (colour c) |} a = Val x) l xs ->
    j < length l -> site_colour (lay_of b) (l_node (lay_of b) c) {| sf_num := num; sf_col := fun c => Val (colour c) |} (nth j l 0) = Val (get xs j)).
  { intros l xs j HF. revert j. induction HF as [|a x l xs Ha HF IH]; intros j Hj; [cbn in Hj; lia|].
    destruct j as [|j]; [exact Ha|]. cbn [nth]. rewrite get_cons_S. apply IH. cbn in Hj. lia. }
  specialize (G _ _ (l_lin (lay_of b) c) HC ltac:(rewrite seq_length; exact Hi)). rewrite seq_nth in G by exact Hi. cbn [Nat.add] in G.
  unfold site_colour in G. rewrite Ec in G. cbn [sf_col sf_num bind] in G. rewrite !Nat.eqb_refl in G. cbn [negb] in G.
  destruct (Z.ltb_spec (colour c) 0); [discriminate|]. destruct (Z.leb_spec (Z.of_nat num) (colour c)); [discriminate|]. cbn [orb] in G.
  injection G as G'. cbv beta.
  rewrite <- G'. destruct (Nat.eqb_spec (Z.to_nat (colour c)) color); destruct (Z.eqb_spec (colour c) (Z.of_nat color)); try reflexivity; lia.
Qed.
Lemma write_subset_ok e size nmemb b num colour colours color F st : swappable size -> build_ok b -> plain b -> strip_room b (size * nmemb) ->
  field_ok size nmemb b F -> colouring b num colour colours -> writable st ->
  exists st', write_subset e size nmemb b colours color F st = Val st' /\
    wrote (sites_bytes size b F (filter (fun c => (colour c =? Z.of_nat color)%Z) (file_order (build_kind b) (build_size b)))) st st'.
Proof.
  intros Hs HB HP HR HF HC HW. rewrite write_subset_gen.
  destruct (gen_write_top e size nmemb b (fun q i => get (colours q) i =? color) (fun c => (colour c =? Z.of_nat color)%Z) F 0 (volume (build_size b)) st)
    as (st' & E & W); auto.
  - lia.
  - now apply plain_aligned.
  - eapply colouring_sel; eauto.
  - exists st'. rewrite coords_all in W by exact HB. auto.
Qed.
Lemma read_subset_ok e size nmemb b num colour colours color F v st : swappable size -> build_ok b -> plain b ->
  colouring b num colour colours ->
  (forall c, in_lattice (build_size b) c -> site_ok size nmemb (v c)) ->
  readable (v_bytes size v (filter (fun c => (colour c =? Z.of_nat color)%Z) (file_order (build_kind b) (build_size b)))) st ->
  exists G st', read_subset e size nmemb b colours color F st = Val (G, st') /\
    (forall c, in_lattice (build_size b) c -> field_at b G c = if (colour c =? Z.of_nat color)%Z then v c else field_at b F c) /\
    was_read (v_bytes size v (filter (fun c => (colour c =? Z.of_nat color)%Z) (file_order (build_kind b) (build_size b)))) st st'.
Proof.
  intros Hs HB HP HC HV HR. rewrite read_subset_gen. destruct (size_ok b HB) as [Hn _].
  set (P := fun c => (colour c =? Z.of_nat color)%Z) in *. pose proof (coords_all b P HB) as EC.
  destruct (gen_read_top e size nmemb b (fun q i => get (colours q) i =? color) P F 0 (volume (build_size b)) v st) as (G & st' & E & A & B & W); auto.
  - lia.
  - now apply plain_aligned.
  - eapply colouring_sel; eauto.
  - intros c Hc. rewrite EC in Hc. apply HV. apply filter_In in Hc as [Hc _]. now apply file_order_in in Hc.
  - now rewrite EC.
  - rewrite EC in *. exists G, st'. split; [exact E|]. split; [|exact W]. intros c Hc. change (colour c =? Z.of_nat color)%Z with (P c). destruct (P c) eqn:EP.
    + apply A, filter_In. split; [now apply file_order_in|exact EP].
    + apply B; [exact Hc|]. intros X. apply filter_In in X as [_ X]. congruence.
Qed.

(** ** Time slices *)
Lemma lexnum_snoc L l c x : length c = length L -> lexnum (L ++ [l]) (c ++ [x]) = lexnum L c + volume L * x.
Proof.
  revert c. induction L as [|a L IH]; intros [|y c] H; cbn in H; try lia; cbn [app lexnum volume]; [lia|].
  rewrite IH by lia. lia.
Qed.
Lemma lexnum_lt L c : in_lattice L c -> lexnum L c < volume L.
Proof. induction 1 as [|x l c L Hx Hc IH]; cbn [lexnum volume]; nia. Qed.
Lemma lexnum_zeros L : lexnum L (repeat 0 (length L)) = 0.
Proof. induction L as [|l L IH]; [reflexivity|]. cbn [length repeat lexnum]. rewrite IH. lia. Qed.
Lemma upd_repeat n x : forall y, upd n x (repeat 0 n ++ [y]) = repeat 0 n ++ [x].
Proof. induction n as [|n IH]; intros y; [reflexivity|]. cbn [repeat app upd]. now rewrite IH. Qed.
Lemma in_lattice_snoc L l c : in_lattice (L ++ [l]) c -> exists d x, c = d ++ [x] /\ in_lattice L d /\ x < l.
Proof.
  intros H. apply Forall2_app_inv_r in H as (d & y & H1 & H2 & ->). inversion H2 as [|x ? r ? Hx Hr]; subst. inversion Hr; subst. eauto.
Qed.
Lemma setTimeSlice_lex k L3 Lt t : k <> CB3D -> t < Lt ->
  setTimeSlice k (L3 ++ [Lt]) (Z.of_nat t) = Val (t * volume L3, (t + 1) * volume L3).
Proof.
  intros Hk Ht. unfold setTimeSlice. rewrite app_length. cbn [length]. replace (length L3 + 1 - 1) with (length L3) by lia.
  assert (G : get (L3 ++ [Lt]) (length L3) = Lt) by (unfold get; rewrite app_nth2, Nat.sub_diag by lia; reflexivity). rewrite G.
  destruct (Z.ltb_spec (Z.of_nat t) 0); [lia|]. destruct (Z.leb_spec (Z.of_nat Lt) (Z.of_nat t)); [lia|]. cbn [orb].
  rewrite Nat2Z.id. replace (repeat 0 (length L3 + 1)) with (repeat 0 (length L3) ++ [0]) by (rewrite repeat_app; reflexivity). rewrite !upd_repeat.
  assert (E : forall x, local_site k (repeat 0 (length L3) ++ [x]) (L3 ++ [Lt]) = x * volume L3).
  { intros x. rewrite local_site_lexnum by (auto; rewrite !app_length, ?repeat_length; cbn; lia).
    rewrite lexnum_snoc by apply repeat_length. rewrite lexnum_zeros. lia. }
  rewrite !E. f_equal. f_equal. destruct (Nat.eqb_spec t (Lt - 1)); [|reflexivity]. rewrite vol_volume, volume_app. cbn [volume]. nia.
Qed.
Lemma setTimeSlice_invalid k L t : (t < 0 \/ Z.of_nat (last L 0%nat) <= t)%Z -> 0 < length L -> setTimeSlice k L t = Abort.
Proof.
  intros H HL. unfold setTimeSlice. rewrite get_last by exact HL.
  destruct (Z.ltb_spec t 0); [reflexivity|]. destruct (Z.leb_spec (Z.of_nat (last L 0%nat)) t); [reflexivity|lia].
Qed.

Lemma filter_map {A B} (f : A -> B) P l : filter P (map f l) = map f (filter (fun x => P (f x)) l).
Proof. induction l as [|x l IH]; [reflexivity|]. cbn [map filter]. rewrite IH. destruct (P (f x)); reflexivity. Qed.
Lemma filter_none {A} P (l : list A) : (forall x, In x l -> P x = false) -> filter P l = [].
Proof. induction l as [|x l IH]; intros H; [reflexivity|]. cbn [filter]. rewrite (H x) by now left. apply IH. intros; apply H; now right. Qed.
Lemma filter_every {A} P (l : list A) : (forall x, In x l -> P x = true) -> filter P l = l.
Proof. induction l as [|x l IH]; intros H; [reflexivity|]. cbn [filter]. rewrite (H x) by now left. rewrite IH; [reflexivity|]. intros; apply H; now right. Qed.
Lemma slice_coords b L3 Lt t : build_ok b -> build_kind b <> CB3D -> build_size b = L3 ++ [Lt] -> t < Lt ->
  coords b (fun _ => true) (t * volume L3) ((t + 1) * volume L3) = filter (fun c => last c 0 =? t) (all_sites (build_size b)).
Proof.
  intros HB HK EL Ht. unfold coords. rewrite filter_true. pose proof (crt_order b HB) as EO.
  assert (EF : file_order (build_kind b) (build_size b) = all_sites (build_size b)) by (destruct (build_kind b); [| |congruence|]; reflexivity).
  rewrite EF in EO. rewrite <- EO, filter_map. f_equal. destruct (size_ok b HB) as [Hn Hp].
  assert (V : volume (build_size b) = volume L3 * Lt) by (rewrite EL, volume_app; cbn [volume]; lia).
  assert (P : forall n, n < volume (build_size b) -> exists r x, n = r + volume L3 * x /\ r < volume L3 /\ last (crt (lay_of b) n) 0 = x).
  { intros n Hn'. pose proof (crt_in b n HB Hn') as I. pose proof (lex_crt (build_kind b) (build_size b) n HK Hn Hp Hn') as E.
    fold (crt (lay_of b) n) in E. unfold build_size, build_kind in E. fold (crt (lay_of b) n) in E. fold (build_size b) in E.
    rewrite EL in I, E. apply in_lattice_snoc in I as (d & x & Ed & Id & Hx). rewrite Ed in *.
    rewrite lexnum_snoc in E by (apply in_lattice_get in Id; tauto). exists (lexnum L3 d), x. split; [lia|].
    split; [now apply lexnum_lt|]. apply last_last. }
  replace ((t + 1) * volume L3 - t * volume L3) with (volume L3) by nia.
  rewrite V. replace (volume L3 * Lt) with (t * volume L3 + (volume L3 + (Lt - t - 1) * volume L3)) by nia.
  rewrite seq_app, filter_app, Nat.add_0_l, seq_app, filter_app.
  rewrite filter_none, filter_every, filter_none, app_nil_r; [reflexivity|..]; intros n Hn'; apply in_seq in Hn';
    (assert (HN : n < volume (build_size b)) by (rewrite V; nia)); destruct (P n HN) as (r & x & E & Hr & ->).
  - apply Nat.eqb_neq. intros ->. nia.
  - apply Nat.eqb_eq. nia.
  - apply Nat.eqb_neq. intros ->. nia.
Qed.
Lemma write_slice_gen e size nmemb b F start stop st :
  match b with Single _ _ => True | Multi _ _ M L => 0 < xinc_of M L /\ Nat.divide (xinc_of M L) stop end ->
  write_slice e size nmemb b F start stop st = gen_write e size nmemb b (fun _ _ => true) F start stop st.
Proof.
  destruct b as [k L|grid k M L]; cbn [write_slice gen_write]; [reflexivity|]. intros [Hx [z Hz]].
  replace (stop mod xinc_of M L) with 0 by (rewrite Hz; symmetry; apply Nat.mod_mul; lia). reflexivity.
Qed.
Lemma read_slice_gen e size nmemb b F start stop st :
  match b with Single _ _ => True | Multi _ _ M L => 0 < xinc_of M L /\ Nat.divide (xinc_of M L) stop end ->
  read_slice e size nmemb b F start stop st = gen_read e size nmemb b (fun _ _ => true) F start stop st.
Proof.
  destruct b as [k L|grid k M L]; cbn [read_slice gen_read]; [reflexivity|]. intros [Hx [z Hz]].
  replace (stop mod xinc_of M L) with 0 by (rewrite Hz; symmetry; apply Nat.mod_mul; lia). reflexivity.
Qed.
Definition deep (b : build) : Prop := match b with Single _ _ => True | Multi _ _ _ L => 2 <= length L end.
Lemma slice_divides b L3 Lt t : build_ok b -> deep b -> build_size b = L3 ++ [Lt] ->
  match b with Single _ _ => True | Multi _ _ M L => 0 < xinc_of M L /\ Nat.divide (xinc_of M L) (t * volume L3) end.
Proof.
  intros HB HD EL. destruct b as [k L|grid k M L]; [exact I|]. destruct (xinc_spec k M L HB) as (_ & Hx & D & _). split; [exact Hx|].
  apply Nat.divide_mul_r. cbn [build_size lay_of par_layout l_size deep] in *. destruct L3 as [|l L3].
  - subst L. cbn in HD. lia.
  - rewrite EL in D. change (get ((l :: L3) ++ [Lt]) 0) with l in D. rewrite EL. cbn [volume]. apply Nat.divide_mul_l. exact D.
Qed.
Lemma slice_range b L3 Lt t : build_ok b -> build_size b = L3 ++ [Lt] -> t < Lt ->
  t * volume L3 <= (t + 1) * volume L3 <= volume (build_size b).
Proof. intros HB EL Ht. rewrite EL, volume_app. cbn [volume]. nia. Qed.

Lemma write_time_slice_ok e size nmemb b F t st : swappable size -> build_ok b -> build_kind b <> CB3D -> deep b ->
  strip_room b (size * nmemb) -> field_ok size nmemb b F -> writable st -> t < last (build_size b) 0 ->
  exists st', write_time_slice e size nmemb b F (Z.of_nat t) st = Val st' /\
    wrote (sites_bytes size b F (filter (fun c => last c 0 =? t) (all_sites (build_size b)))) st st'.
Proof.
  intros Hs HB HK HD HR HF HW Ht. destruct (size_ok b HB) as [Hn _].
  assert (EL : exists L3 Lt, build_size b = L3 ++ [Lt]) by
    (exists (removelast (build_size b)), (last (build_size b) 0); apply app_removelast_last; intros X; rewrite X in Hn; cbn in Hn; lia).
  destruct EL as (L3 & Lt & EL). rewrite EL, last_last in Ht. unfold write_time_slice. rewrite EL, setTimeSlice_lex by assumption. cbn [bind].
  pose proof (slice_range b L3 Lt t HB EL Ht) as Hr.
  rewrite write_slice_gen by (apply (slice_divides b L3 Lt (t + 1)); assumption).
  destruct (gen_write_top e size nmemb b (fun _ _ => true) (fun _ => true) F (t * volume L3) ((t + 1) * volume L3) st) as (st' & E & W); auto.
  - apply aligned_lex; auto. pose proof (slice_divides b L3 Lt t HB HD EL). pose proof (slice_divides b L3 Lt (t + 1) HB HD EL). destruct b; tauto.
  - intros c _. reflexivity.
  - rewrite (slice_coords b L3 Lt t HB HK EL Ht) in W. rewrite <- EL. eauto.
Qed.
Lemma read_time_slice_ok e size nmemb b F v t st : swappable size -> build_ok b -> build_kind b <> CB3D -> deep b ->
  (forall c, in_lattice (build_size b) c -> site_ok size nmemb (v c)) -> t < last (build_size b) 0 ->
  readable (v_bytes size v (filter (fun c => last c 0 =? t) (all_sites (build_size b)))) st ->
  exists G st', read_time_slice e size nmemb b F (Z.of_nat t) st = Val (G, st') /\
    (forall c, in_lattice (build_size b) c -> field_at b G c = if last c 0 =? t then v c else field_at b F c) /\
    was_read (v_bytes size v (filter (fun c => last c 0 =? t) (all_sites (build_size b)))) st st'.
Proof.
  intros Hs HB HK HD HV Ht HR. destruct (size_ok b HB) as [Hn _].
  assert (EL : exists L3 Lt, build_size b = L3 ++ [Lt]) by
    (exists (removelast (build_size b)), (last (build_size b) 0); apply app_removelast_last; intros X; rewrite X in Hn; cbn in Hn; lia).
  destruct EL as (L3 & Lt & EL). rewrite EL, last_last in Ht. unfold read_time_slice. rewrite EL, setTimeSlice_lex by assumption. cbn [bind]. rewrite <- EL.
  pose proof (slice_range b L3 Lt t HB EL Ht) as Hr.
  rewrite read_slice_gen by (apply (slice_divides b L3 Lt (t + 1)); assumption).
  pose proof (slice_coords b L3 Lt t HB HK EL Ht) as EC.
  destruct (gen_read_top e size nmemb b (fun _ _ => true) (fun _ => true) F (t * volume L3) ((t + 1) * volume L3) v st) as (G & st' & E & A & B & W); auto.
  - apply aligned_lex; auto. pose proof (slice_divides b L3 Lt t HB HD EL). pose proof (slice_divides b L3 Lt (t + 1) HB HD EL). destruct b; tauto.
  - intros c _. reflexivity.
  - intros c Hc. apply HV. eapply coords_in; [exact HB| |exact Hc]. lia.
  - now rewrite EC.
  - rewrite EC in *. exists G, st'. split; [exact E|]. split; [|exact W]. intros c Hc. destruct (Nat.eqb_spec (last c 0) t).
    + apply A, filter_In. split; [now apply all_sites_in|]. now apply Nat.eqb_eq.
    + apply B; [exact Hc|]. intros X. apply filter_In in X as [_ X]. apply Nat.eqb_eq in X. congruence.
Qed.

(** ** Single sites *)
Lemma write_site_ok e size nmemb b F c st : swappable size -> site_room b (size * nmemb) -> site_ok size nmemb (field_at b F c) ->
  writable st -> exists st', write_site e size nmemb b F c st = Val st' /\ wrote (site_bytes size (field_at b F c)) st st'.
Proof.
  intros Hs HR HF HW. rewrite <- be_site_bytes. destruct b as [k L|grid k M L]; cbn [write_site site_room] in *.
  - unfold write_local. change (F 0 (linearSiteIndex1 k L c)) with (field_at (Single k L) F c). rewrite write_word1 by assumption.
    cbn [bind snd]. eexists. split; [reflexivity|]. now apply emit_wrote.
  - rewrite clear_ok by exact HR. cbn [bind].
    change (F (nodeNumberP M L c) (linearSiteIndexP k M L c)) with (field_at (Multi grid k M L) F c). rewrite write_word1 by assumption.
    cbn [bind snd]. eexists. split; [reflexivity|]. now apply emit_wrote.
Qed.
Lemma read_site_ok e size nmemb b F c w st : swappable size -> build_ok b -> in_lattice (build_size b) c -> site_ok size nmemb w ->
  readable (site_bytes size w) st ->
  exists G st', read_site e size nmemb b F c st = Val (G, st') /\
    (forall d, in_lattice (build_size b) d -> field_at b G d = if list_eq_dec Nat.eq_dec d c then w else field_at b F d) /\
    was_read (site_bytes size w) st st'.
Proof.
  intros Hs HB Hc Hw HR. destruct (readable_ready _ _ HR) as [rest R]. rewrite <- be_site_bytes in *. unfold read_site.
  rewrite (read_word1 e size nmemb w rest) by assumption. cbn [bind].
  pose proof (unimage_image e size nmemb w [] Hw) as U. rewrite app_nil_r in U. rewrite U.
  exists (fset F (l_node (lay_of b) c) (l_lin (lay_of b) c) w), (consume (be size w) st).
  split; [destruct b; reflexivity|]. split; [|apply consume_read].
  intros d Hd. unfold field_at. destruct (list_eq_dec Nat.eq_dec d c) as [->|NE]; [apply fset_eq|]. apply fset_ne. intros X. apply NE.
  apply (place_inj b); auto.
Qed.

(** ** peekSite and pokeSite *)
Lemma peek_ok b zero F c q : peekSite b zero F c q = field_at b F c.
Proof.
  destruct b as [k L|grid k M L]; [reflexivity|]. cbn [peekSite]. unfold broadcast, sendToPrimaryNode, field_at.
  cbn [lay_of par_layout l_node l_lin]. destruct (Nat.eqb_spec (nodeNumberP M L c) 0) as [E|E]; cbn [negb].
  - rewrite E. now rewrite Nat.eqb_refl.
  - rewrite !Nat.eqb_refl. reflexivity.
Qed.
Lemma poke_ok b F r c d : build_ok b -> in_lattice (build_size b) c -> in_lattice (build_size b) d ->
  field_at b (pokeSite b F r c) d = if list_eq_dec Nat.eq_dec d c then r (l_node (lay_of b) c) else field_at b F d.
Proof.
  intros HB Hc Hd. assert (G : field_at b (pokeSite b F r c) d = fset F (l_node (lay_of b) c) (l_lin (lay_of b) c) (r (l_node (lay_of b) c)) (l_node (lay_of b) d) (l_lin (lay_of b) d)).
  { destruct b as [k L|grid k M L]; [reflexivity|]. unfold field_at. cbn [pokeSite lay_of par_layout l_node l_lin].
    destruct (Nat.eqb_spec (nodeNumberP M L d) (nodeNumberP M L c)) as [E|E]; [now rewrite <- E|].
    unfold fset. apply Nat.eqb_neq in E. now rewrite E. }
  rewrite G. destruct (list_eq_dec Nat.eq_dec d c) as [->|NE]; [apply fset_eq|]. apply fset_ne. intros X. apply NE. apply (place_inj b); auto.
Qed.

(** ** QDP_extract and QDP_insert *)
Lemma extract_ok : forall tab src dest, (forall i, In i tab -> i < length dest) ->
  exists d, QDP_extract tab src dest = Val d /\ length d = length dest /\
    forall i, nth_error d i = if in_dec Nat.eq_dec i tab then Some (src i) else nth_error dest i.
Proof.
  induction tab as [|t tab IH]; intros src dest H.
  - exists dest. repeat split.
  - cbn [QDP_extract]. assert (Ht : t < length dest) by (apply H; now left). destruct (Nat.ltb_spec t (length dest)); [|lia].
    set (dest1 := firstn t dest ++ src t :: skipn (S t) dest).
    assert (L1 : length dest1 = length dest) by (unfold dest1; rewrite app_length, firstn_length; cbn [length]; rewrite skipn_length; lia).
    destruct (IH src dest1) as (d & E & HL & HN).
    { intros i Hi. rewrite L1. apply H. now right. }
    exists d. split; [exact E|]. split; [lia|]. intros i. rewrite HN. destruct (in_dec Nat.eq_dec i tab) as [I|I].
    + destruct (in_dec Nat.eq_dec i (t :: tab)) as [J|J]; [reflexivity|]. exfalso. apply J. now right.
    + assert (N1 : nth_error dest1 i = if i =? t then Some (src t) else nth_error dest i).
      { unfold dest1. pose proof (firstn_length t dest) as FL. destruct (Nat.eqb_spec i t) as [->|NE].
        - rewrite nth_error_app2 by lia. replace (t - length (firstn t dest)) with 0 by lia. reflexivity.
        - rewrite <- (firstn_skipn t dest) at 3. destruct (Nat.lt_ge_cases i t).
          + rewrite !nth_error_app1 by lia. reflexivity.
          + rewrite !nth_error_app2 by lia. replace (length (firstn t dest)) with t by lia.
            replace (i - t) with (S (i - t - 1)) by lia.
            change (nth_error (src t :: skipn (S t) dest) (S (i - t - 1))) with (nth_error (skipn (S t) dest) (i - t - 1)).
            rewrite !nth_error_skipn'. f_equal. lia. }
      rewrite N1. destruct (Nat.eqb_spec i t) as [->|NE]; destruct (in_dec Nat.eq_dec _ (t :: tab)) as [J|J]; try reflexivity.
      * exfalso. apply J. now left.
      * destruct J as [J|J]; [congruence|tauto].
Qed.
Lemma extract_outside tab : forall src dest, (exists i, In i tab /\ length dest <= i) -> QDP_extract tab src dest = Undef.
Proof.
  induction tab as [|t tab IH]; intros src dest (i & Hi & HL); [destruct Hi|]. cbn [QDP_extract].
  destruct (Nat.ltb_spec t (length dest)); [|reflexivity]. apply IH. exists i. destruct Hi as [->|Hi]; [lia|]. split; [exact Hi|].
  rewrite app_length, firstn_length. cbn [length]. rewrite skipn_length. lia.
Qed.
Lemma insert_ok : forall tab src dest, (forall i, In i tab -> i < length src) ->
  exists d, QDP_insert tab src dest = Val d /\ forall i, Some (d i) = if in_dec Nat.eq_dec i tab then nth_error src i else Some (dest i).
Proof.
  induction tab as [|t tab IH]; intros src dest H.
  - exists dest. split; reflexivity.
  - cbn [QDP_insert]. assert (Ht : t < length src) by (apply H; now left). destruct (nth_error src t) as [w|] eqn:E.
    2:{ apply nth_error_None in E. lia. }
    cbn [of_option bind]. destruct (IH src (fun j => if j =? t then w else dest j)) as (d & E1 & HN); [intros; apply H; now right|].
    exists d. split; [exact E1|]. intros i. rewrite HN. destruct (in_dec Nat.eq_dec i tab) as [I|I]; destruct (in_dec Nat.eq_dec i (t :: tab)) as [J|J]; try reflexivity.
    + exfalso. apply J. now right.
    + destruct J as [->|J]; [|tauto]. rewrite Nat.eqb_refl. now symmetry.
    + destruct (Nat.eqb_spec i t) as [->|NE]; [exfalso; apply J; now left|reflexivity].
Qed.

(** ** Round trips through a file *)
Lemma wrote_file bs st' : wrote bs file_writer st' -> s_data st' = bs /\ s_crc st' = Some (crc32 0%N (Some bs)).
Proof. intros (D & _ & C & _). cbn in D, C. rewrite skipn_nil, app_nil_r in D. auto. Qed.
Lemma readable_file bs : readable bs (file_reader bs).
Proof. unfold readable, file_reader. cbn. split; [reflexivity|]. split; [discriminate|]. split; [lia|]. exists []. now rewrite app_nil_r. Qed.
Lemma file_order_lex k L : k <> CB3D -> file_order k L = all_sites L.
Proof. destruct k; [| |congruence|]; reflexivity. Qed.
Lemma lattice_round_trip e1 e2 size nmemb b1 b2 F G0 : swappable size -> build_ok b1 -> build_ok b2 -> build_size b1 = build_size b2 ->
  plain b1 -> plain b2 -> (build_kind b1 = CB3D <-> build_kind b2 = CB3D) -> strip_room b1 (size * nmemb) -> field_ok size nmemb b1 F ->
  exists w G r, write_lattice e1 size nmemb b1 F file_writer = Val w /\
    read_lattice e2 size nmemb b2 G0 (file_reader (s_data w)) = Val (G, r) /\
    (forall c, in_lattice (build_size b2) c -> field_at b2 G c = field_at b1 F c) /\
    s_get r = length (s_data w) /\ s_crc r = s_crc w.
Proof.
  intros Hs H1 H2 EL P1 P2 K HR HF.
  destruct (write_lattice_ok e1 size nmemb b1 F file_writer Hs H1 P1 HR HF) as (w & Ew & W).
  { unfold writable, file_writer. cbn. split; [reflexivity|]. split; [discriminate|lia]. }
  destruct (wrote_file _ _ W) as [D C].
  assert (EF : file_order (build_kind b1) (build_size b1) = file_order (build_kind b2) (build_size b2)).
  { rewrite EL. destruct (build_kind b1), (build_kind b2); cbn [file_order]; try reflexivity; destruct K as [K1 K2];
      (discriminate (K1 eq_refl) || discriminate (K2 eq_refl)). }
  destruct (read_lattice_ok e2 size nmemb b2 G0 (field_at b1 F) (file_reader (s_data w)) Hs H2 P2) as (G & r & Er & A & (R1 & R2 & R3)).
  { intros c Hc. apply HF. now rewrite EL. }
  { rewrite <- EF. change (v_bytes size (field_at b1 F) (file_order (build_kind b1) (build_size b1))) with (sites_bytes size b1 F (file_order (build_kind b1) (build_size b1))).
    rewrite <- D. apply readable_file. }
  exists w, G, r. split; [exact Ew|]. split; [exact Er|]. split; [exact A|].
  rewrite <- EF in R2, R3. change (v_bytes size (field_at b1 F) (file_order (build_kind b1) (build_size b1))) with (sites_bytes size b1 F (file_order (build_kind b1) (build_size b1))) in R2, R3.
  rewrite <- D in R2, R3, C. split; [exact R2|]. rewrite R3, C. reflexivity.
Qed.

(** The two orders. *)
Lemma order_lex_nth k L n : k <> CB3D -> 0 < length L -> n < volume L -> nth_error (all_sites L) n = Some (crtesn k n L).
Proof.
  intros Hk HL Hn. rewrite <- (map_crtesn_lex k L Hk HL). rewrite (map_nth_error _ n (seq 0 (volume L)) (d := n)); [reflexivity|].
  rewrite nth_error_nth' with (d := 0) by (rewrite seq_length; exact Hn). f_equal. rewrite seq_nth by exact Hn. lia.
Qed.
Lemma swap_orders L (v : list nat -> elem) size : 0 < length L -> positive L ->
  v_bytes size (fun c => v (crtesn LEXICO (lexnum_t L c) L)) (all_sites_t L) = v_bytes size v (all_sites L).
Proof.
  intros HL Hp. unfold v_bytes. rewrite <- (map_crtesn_lex LEXICO L) by (auto; discriminate). rewrite <- (map_crtesn_t L HL), !map_map. f_equal.
  apply map_ext_in. intros n Hn. apply in_seq in Hn. do 2 f_equal.
  rewrite <- local_site_lexnum_t by (auto; apply length_crtesn; exact Hp). rewrite local_site_crtesn by (auto; lia). reflexivity.
Qed.
Lemma swap_orders_t L (v : list nat -> elem) size : 0 < length L -> positive L ->
  v_bytes size (fun c => v (crtesn CB3D (lexnum L c) L)) (all_sites L) = v_bytes size v (all_sites_t L).
Proof.
  intros HL Hp. unfold v_bytes. rewrite <- (map_crtesn_lex LEXICO L) by (auto; discriminate). rewrite <- (map_crtesn_t L HL), !map_map. f_equal.
  apply map_ext_in. intros n Hn. apply in_seq in Hn. do 2 f_equal. f_equal. apply lex_crt; auto; [discriminate|lia].
Qed.

Lemma lexnum_t_lt L c : L <> [] -> in_lattice L c -> lexnum_t L c < volume L.
Proof.
  intros HL Hc. rewrite <- (rot_volume L HL). apply lexnum_lt. apply all_sites_in.
  apply (all_sites_t_in L c HL) in Hc. unfold all_sites_t in Hc. apply in_map_iff in Hc as (d & <- & Hd).
  rewrite rot_unrot; [exact Hd|]. apply all_sites_in in Hd. intros ->. inversion Hd.
Qed.
Lemma mixed_up e1 e2 size nmemb b1 b2 F G0 : swappable size -> build_ok b1 -> build_ok b2 -> build_size b1 = build_size b2 ->
  build_kind b1 <> CB3D -> build_kind b2 = CB3D -> runs_on_one_node b2 -> strip_room b1 (size * nmemb) -> field_ok size nmemb b1 F ->
  exists w G r, write_lattice e1 size nmemb b1 F file_writer = Val w /\
    read_lattice e2 size nmemb b2 G0 (file_reader (s_data w)) = Val (G, r) /\
    forall c d, in_lattice (build_size b1) c -> in_lattice (build_size b1) d -> lexnum (build_size b1) d = lexnum_t (build_size b1) c ->
      field_at b2 G c = field_at b1 F d.
Proof.
  intros Hs H1 H2 EL K1 K2 HU HR HF. destruct (size_ok b1 H1) as [HL Hp].
  destruct (write_lattice_ok e1 size nmemb b1 F file_writer Hs H1 (or_introl K1) HR HF) as (w & Ew & W).
  { unfold writable, file_writer. cbn. split; [reflexivity|]. split; [discriminate|lia]. }
  destruct (wrote_file _ _ W) as [D _]. rewrite file_order_lex in D by exact K1.
  change (sites_bytes size b1 F (all_sites (build_size b1))) with (v_bytes size (field_at b1 F) (all_sites (build_size b1))) in D.
  set (L := build_size b1) in *. assert (HLn : L <> []) by (intros X; rewrite X in HL; cbn in HL; lia).
  destruct (read_lattice_ok e2 size nmemb b2 G0 (fun c => field_at b1 F (crtesn LEXICO (lexnum_t L c) L)) (file_reader (s_data w)) Hs H2 (or_intror HU))
    as (G & r & Er & A & _).
  { intros c Hc. rewrite <- EL in Hc. apply HF. apply crtesn_in; [exact Hp|]. now apply lexnum_t_lt. }
  { rewrite K2, <- EL. cbn [file_order]. rewrite swap_orders, <- D by assumption. apply readable_file. }
  exists w, G, r. split; [exact Ew|]. split; [exact Er|]. intros c d Hc Hd E. rewrite A by (now rewrite <- EL). f_equal.
  rewrite <- E, <- (local_site_lexnum LEXICO) by (try discriminate; auto; apply in_lattice_get in Hd; tauto). now apply crtesn_local_site.
Qed.
Lemma mixed_up_t e1 e2 size nmemb b1 b2 F G0 : swappable size -> build_ok b1 -> build_ok b2 -> build_size b1 = build_size b2 ->
  build_kind b1 = CB3D -> build_kind b2 <> CB3D -> runs_on_one_node b1 -> strip_room b1 (size * nmemb) -> field_ok size nmemb b1 F ->
  exists w G r, write_lattice e1 size nmemb b1 F file_writer = Val w /\
    read_lattice e2 size nmemb b2 G0 (file_reader (s_data w)) = Val (G, r) /\
    forall c d, in_lattice (build_size b1) c -> in_lattice (build_size b1) d -> lexnum_t (build_size b1) d = lexnum (build_size b1) c ->
      field_at b2 G c = field_at b1 F d.
Proof.
  intros Hs H1 H2 EL K1 K2 HU HR HF. destruct (size_ok b1 H1) as [HL Hp].
  destruct (write_lattice_ok e1 size nmemb b1 F file_writer Hs H1 (or_intror HU) HR HF) as (w & Ew & W).
  { unfold writable, file_writer. cbn. split; [reflexivity|]. split; [discriminate|lia]. }
  destruct (wrote_file _ _ W) as [D _]. rewrite K1 in D. cbn [file_order] in D.
  change (sites_bytes size b1 F (all_sites_t (build_size b1))) with (v_bytes size (field_at b1 F) (all_sites_t (build_size b1))) in D.
  set (L := build_size b1) in *.
  destruct (read_lattice_ok e2 size nmemb b2 G0 (fun c => field_at b1 F (crtesn CB3D (lexnum L c) L)) (file_reader (s_data w)) Hs H2 (or_introl K2))
    as (G & r & Er & A & _).
  { intros c Hc. rewrite <- EL in Hc. apply HF. apply crtesn_in; [exact Hp|]. now apply lexnum_lt. }
  { rewrite file_order_lex by exact K2. rewrite <- EL. rewrite swap_orders_t, <- D by assumption. apply readable_file. }
  exists w, G, r. split; [exact Ew|]. split; [exact Er|]. intros c d Hc Hd E. rewrite A by (now rewrite <- EL). f_equal.
  rewrite <- E, <- local_site_lexnum_t by (auto; apply in_lattice_get in Hd; tauto). now apply crtesn_local_site.
Qed.

(** The buffer of the clear-to-send message. *)
Lemma write_site_overrun e size nmemb k M L F c st : size * nmemb < 4 -> nodeNumberP M L c <> 0 ->
  write_site e size nmemb (Multi false k M L) F c st = Undef.
Proof.
  intros H N. cbn [write_site]. unfold clear_to_send. apply Nat.eqb_neq in N. rewrite N. apply Nat.ltb_lt in H. rewrite H. reflexivity.
Qed.

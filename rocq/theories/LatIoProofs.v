(** Proofs about lattice input and output. *)
From Coq Require Import List Arith NArith ZArith Bool Lia.
From Coq Require Import ZifyBool ZifyNat ZifyN.
From Verif Require Import Base LayoutModel LayoutSpec LayoutProofs LayoutOk SetModel SetProofs
  CrcModel CrcSpec CrcProofs SwapProofs IoModel IoSpec IoProofs LatIoModel LatIoSpec.
Import ListNotations.
Local Open Scope nat_scope.
Ltac Zify.zify_post_hook ::= Z.div_mod_to_equations.
Local Arguments crc32 : simpl never.

(** ** The order of the sites *)
Lemma flat_map_seq_blocks l : forall n a, flat_map (fun m => seq (l * m) l) (seq a n) = seq (l * a) (l * n).
Proof.
  induction n as [|n IH]; intros a; cbn [seq flat_map]; [now rewrite Nat.mul_0_r|].
  rewrite IH. replace (l * S n) with (l + l * n) by lia. rewrite seq_app. f_equal. f_equal. lia.
Qed.
Lemma seq_add_map : forall n a b, map (fun x => x + b) (seq a n) = seq (b + a) n.
Proof. induction n as [|n IH]; intros a b; cbn [seq map]; [reflexivity|]. rewrite IH. f_equal; [lia|f_equal; lia]. Qed.
Lemma lexnum_all_sites L : map (lexnum L) (all_sites L) = seq 0 (volume L).
Proof.
  induction L as [|l L IH]; [reflexivity|]. cbn [all_sites volume].
  replace (seq 0 (l * volume L)) with (seq (l * 0) (l * volume L)) by (f_equal; lia). rewrite <- flat_map_seq_blocks, <- IH.
  clear IH. induction (all_sites L) as [|c cs IHc]; [reflexivity|]. cbn [flat_map map]. rewrite map_app, IHc. f_equal.
  rewrite map_map. cbn [lexnum]. rewrite seq_add_map, Nat.add_0_r. reflexivity.
Qed.
Lemma all_sites_in L c : In c (all_sites L) <-> in_lattice L c.
Proof.
  unfold in_lattice. revert c. induction L as [|l L IH]; intros c; cbn [all_sites].
  - split; [intros [<-|[]]; constructor|]. intros H. inversion H. now left.
  - rewrite in_flat_map. split.
    + intros (c' & H & Hc). apply in_map_iff in Hc. destruct Hc as (x & <- & Hx). apply in_seq in Hx. constructor; [lia|now apply IH].
    + intros H. inversion H as [|x m c' L' Hx Hc]; subst. exists c'. split; [now apply IH|]. apply in_map_iff. exists x.
      split; [reflexivity|]. apply in_seq. lia.
Qed.
Lemma map_crtesn_lex k L : k <> CB3D -> 0 < length L -> map (fun p => crtesn k p L) (seq 0 (volume L)) = all_sites L.
Proof.
  intros Hk Hn. rewrite <- lexnum_all_sites, map_map. rewrite <- (map_id (all_sites L)) at 2. apply map_ext_in.
  intros c Hc. apply all_sites_in in Hc. rewrite <- (local_site_lexnum k) by (auto; apply in_lattice_get in Hc; tauto).
  now apply crtesn_local_site.
Qed.
Lemma rot_unrot c : c <> [] -> rot (tl c ++ [hd 0 c]) = c.
Proof. intros H. destruct c as [|x c]; [congruence|]. unfold rot. cbn [tl hd]. now rewrite last_last, removelast_last. Qed.
Lemma unrot_rot c : c <> [] -> tl (rot c) ++ [hd 0 (rot c)] = c.
Proof. intros H. unfold rot. cbn [tl hd]. symmetry. now apply app_removelast_last. Qed.
Lemma rot_length c : c <> [] -> length (rot c) = length c.
Proof.
  intros H. rewrite <- (unrot_rot c H) at 2. unfold rot. cbn [tl hd length]. rewrite app_length. cbn. lia.
Qed.
Lemma volume_app a b : volume (a ++ b) = volume a * volume b.
Proof. induction a as [|x a IH]; cbn [app volume]; [lia|]. rewrite IH. lia. Qed.
Lemma rot_volume L : L <> [] -> volume (rot L) = volume L.
Proof.
  intros H. rewrite <- (unrot_rot L H) at 2. unfold rot. cbn [tl hd volume]. rewrite volume_app. cbn [volume]. lia.
Qed.
Lemma all_sites_t_in L c : L <> [] -> (In c (all_sites_t L) <-> in_lattice L c).
Proof.
  intros H. unfold all_sites_t. rewrite in_map_iff. split.
  - intros (d & <- & Hd). apply all_sites_in in Hd. unfold rot in Hd. inversion Hd as [|x l d' L' Hx Hc]; subst. cbn [tl hd].
    rewrite (app_removelast_last 0 H). apply Forall2_app; [exact Hc|]. constructor; [exact Hx|constructor].
  - intros Hc. assert (c <> []) by (intros ->; inversion Hc; congruence). exists (rot c). split; [now apply unrot_rot|].
    apply all_sites_in. unfold rot. rewrite (app_removelast_last 0 H) in Hc. rewrite (app_removelast_last 0 H0) in Hc.
    apply Forall2_app_inv_l in Hc as (L1 & L2 & H1 & H2 & E). inversion H2 as [|? ? ? ? Hx Hn]; subst. inversion Hn; subst.
    apply app_inj_tail in E as [-> ->]. constructor; [exact Hx|exact H1].
Qed.
Lemma map_crtesn_t L : 0 < length L -> map (fun p => crtesn CB3D p L) (seq 0 (volume L)) = all_sites_t L.
Proof.
  intros Hn. assert (HL : L <> []) by (destruct L; cbn in *; [lia|discriminate]).
  unfold all_sites_t. rewrite <- (rot_volume L HL), <- lexnum_all_sites, map_map. apply map_ext_in.
  intros d Hd. assert (Hd' : d <> []) by (apply all_sites_in in Hd; intros ->; inversion Hd).
  assert (Hc : In (tl d ++ [hd 0 d]) (all_sites_t L)) by (unfold all_sites_t; apply in_map_iff; eauto).
  apply all_sites_t_in in Hc; [|exact HL].
  rewrite <- (crtesn_local_site CB3D (tl d ++ [hd 0 d]) L Hn Hc) at 1. f_equal.
  rewrite local_site_lexnum_t by (auto; apply in_lattice_get in Hc; tauto). unfold lexnum_t. now rewrite rot_unrot.
Qed.

(** The file order of a layout. *)
Definition file_order (k : layout_kind) (L : list nat) : list (list nat) :=
  match k with CB3D => all_sites_t L | _ => all_sites L end.
Lemma map_crtesn k L : 0 < length L -> map (fun p => crtesn k p L) (seq 0 (volume L)) = file_order k L.
Proof. intros H. destruct k; [| |now apply map_crtesn_t|]; apply map_crtesn_lex; auto; discriminate. Qed.

(** ** Sites as bytes *)
Definition be (size : nat) (w : elem) : list N := concat (map (mem BigE size) w).
Lemma be_site_bytes size w : be size w = site_bytes size w.
Proof. unfold be, site_bytes. f_equal. apply map_ext. intros v. apply big_endian_mem. Qed.
Lemma image_length e size w : length (image e size w) = size * length w.
Proof. apply concat_words_length. Qed.
Lemma unimage_image e size nmemb w post : site_ok size nmemb w -> unimage e size nmemb (image e size w ++ post) = w.
Proof.
  intros [HL HF]. unfold unimage, image. subst nmemb.
  assert (G : forall a pre, length pre = a * size ->
    map (fun j => word e (firstn size (skipn (j * size) (pre ++ concat (map (mem e size) w) ++ post)))) (seq a (length w)) = w).
  { induction HF as [|v w Hv HF IH]; intros a pre HP; [reflexivity|]. cbn [length seq map concat]. f_equal.
    - rewrite skipn_app_l by lia. rewrite <- app_assoc, firstn_app_l by apply mem_length. now apply word_mem.
    - specialize (IH (S a) (pre ++ mem e size v)). rewrite <- !app_assoc in *. apply IH. rewrite app_length, mem_length. lia. }
  apply (G 0 []). reflexivity.
Qed.
Lemma concat_images e size (ws : list elem) : concat (map (image e size) ws) = concat (map (mem e size) (concat ws)).
Proof. induction ws as [|w ws IH]; [reflexivity|]. cbn [map concat]. now rewrite map_app, concat_app, IH. Qed.
Lemma concat_length_const (ws : list elem) n : Forall (fun w => length w = n) ws -> length (concat ws) = n * length ws.
Proof. induction 1 as [|w ws H HF IH]; cbn [concat length]; [lia|]. rewrite app_length, IH, H. lia. Qed.

Lemma write_words e size nmemb ws st : swappable size -> Forall (site_ok size nmemb) ws ->
  write_array e (concat (map (image e size) ws)) size (nmemb * length ws) st
  = Val (concat (map (image e size) ws), emit (concat (map (be size) ws)) st).
Proof.
  intros Hs HF. pose proof (write_array_ok e size (concat ws) [] st Hs) as E.
  rewrite (concat_length_const ws nmemb) in E by (eapply Forall_impl; [|exact HF]; intros a [A _]; exact A).
  rewrite app_nil_r in E. rewrite concat_images. rewrite E. do 2 f_equal. f_equal. symmetry. apply (concat_images BigE).
Qed.
Lemma read_words e size nmemb ws rest st : swappable size -> Forall (site_ok size nmemb) ws ->
  ready st (concat (map (be size) ws) ++ rest) ->
  read_array e size (nmemb * length ws) st = Val (concat (map (image e size) ws), consume (concat (map (be size) ws)) st).
Proof.
  intros Hs HF HR. change (be size) with (image BigE size) in *. rewrite !concat_images in *.
  rewrite <- (concat_length_const ws nmemb) by (eapply Forall_impl; [|exact HF]; intros a [A _]; exact A).
  now apply (read_array_ok e size (concat ws) rest).
Qed.
Lemma write_word1 e size nmemb w st : swappable size -> site_ok size nmemb w ->
  write_array e (image e size w) size nmemb st = Val (image e size w, emit (be size w) st).
Proof.
  intros Hs H. pose proof (write_words e size nmemb [w] st Hs ltac:(now constructor)) as E.
  cbn [map concat length] in E. rewrite !app_nil_r, Nat.mul_1_r in E. exact E.
Qed.
Lemma read_word1 e size nmemb w rest st : swappable size -> site_ok size nmemb w -> ready st (be size w ++ rest) ->
  read_array e size nmemb st = Val (image e size w, consume (be size w) st).
Proof.
  intros Hs H HR. pose proof (read_words e size nmemb [w] rest st Hs ltac:(now constructor)) as E.
  cbn [map concat length] in E. rewrite !app_nil_r, Nat.mul_1_r in E. exact (E HR).
Qed.

(** ** Filling a field *)
Definition place (lay : layout) (c : list nat) : nat * nat := (l_node lay c, l_lin lay c).
Fixpoint fill (F : field) (ps : list (nat * nat)) (ws : list elem) : field :=
  match ps, ws with
  | p :: ps', w :: ws' => fill (fset F (fst p) (snd p) w) ps' ws'
  | _, _ => F
  end.
Lemma fset_eq F q i w : fset F q i w q i = w.
Proof. unfold fset. now rewrite !Nat.eqb_refl. Qed.
Lemma fset_ne F q i w q' i' : (q', i') <> (q, i) -> fset F q i w q' i' = F q' i'.
Proof.
  intros H. unfold fset. destruct (Nat.eqb_spec q' q); destruct (Nat.eqb_spec i' i); cbn [andb]; try reflexivity. subst. congruence.
Qed.
Lemma fill_other ps : forall F ws q i, ~ In (q, i) ps -> fill F ps ws q i = F q i.
Proof.
  induction ps as [|p ps IH]; intros F [|w ws] q i H; cbn [fill]; auto.
  rewrite IH by (intros X; apply H; now right). apply fset_ne. intros E. apply H. left. rewrite E. now destruct p.
Qed.
Lemma fill_hit (f : list nat -> elem) lay : forall cs F c, NoDup (map (place lay) cs) -> In c cs ->
  fill F (map (place lay) cs) (map f cs) (l_node lay c) (l_lin lay c) = f c.
Proof.
  induction cs as [|d cs IH]; intros F c ND Hc; [destruct Hc|]. cbn [map fill]. inversion ND as [|? ? NI ND']; subst.
  destruct Hc as [->|Hc].
  - rewrite fill_other by exact NI. cbn [place fst snd]. apply fset_eq.
  - now apply IH.
Qed.
Lemma fill_app ps1 : forall F ws1 ps2 ws2, length ps1 = length ws1 ->
  fill F (ps1 ++ ps2) (ws1 ++ ws2) = fill (fill F ps1 ws1) ps2 ws2.
Proof.
  induction ps1 as [|p ps1 IH]; intros F [|w ws1] ps2 ws2 H; cbn in H; try lia; [reflexivity|]. cbn [app fill]. apply IH. lia.
Qed.
Lemma scatter_fill e size nmemb lay node : forall cs ws F, length ws = length cs -> Forall (site_ok size nmemb) ws ->
  (forall c, In c cs -> l_node lay c = node) ->
  scatter e size nmemb node (map (l_lin lay) cs) (concat (map (image e size) ws)) F = fill F (map (place lay) cs) ws.
Proof.
  induction cs as [|c cs IH]; intros [|w ws] F HL HF HN; cbn in HL; try lia; [reflexivity|].
  inversion HF as [|? ? Hw HF']; subst. cbn [map scatter concat fill].
  assert (E : length (image e size w) = size * nmemb) by (rewrite image_length; f_equal; apply Hw).
  rewrite skipn_app_l, firstn_app_l by exact E. rewrite IH by (auto; try lia; intros; apply HN; now right).
  cbn [place fst snd]. rewrite (HN c) by now left. f_equal. f_equal.
  pose proof (unimage_image e size nmemb w [] Hw) as U. rewrite app_nil_r in U. exact U.
Qed.

(** ** The single-process loops *)
Section Single.
  Variables (e : endian) (size nmemb : nat) (k : layout_kind) (L : list nat).
  Hypothesis Hs : swappable size.
  Let lay := scalar_layout k L.
  Variables (sel : nat -> bool) (P : list nat -> bool).

  Lemma write_sites_ok F : forall ns,
    (forall n, In n ns -> sel (l_lin_lex lay n) = P (crt lay n) /\ site_ok size nmemb (field_at (Single k L) F (crt lay n))) ->
    forall st, coherent st -> write_sites e size nmemb lay sel F ns st
      = Val (emit (concat (map (fun c => be size (field_at (Single k L) F c)) (filter P (map (crt lay) ns)))) st).
  Proof.
    intros ns. unfold write_sites. induction ns as [|n ns IH]; intros H st HC; cbn [write_all map filter concat]; [now rewrite emit_nil|].
    destruct (H n) as [E Hw]; [now left|]. rewrite E. destruct (P (crt lay n)).
    - unfold write_local. change (F 0 (l_lin_lex lay n)) with (field_at (Single k L) F (crt lay n)).
      rewrite write_word1 by assumption. cbn [bind snd]. rewrite IH; [|intros; apply H; now right|apply emit_coherent, HC].
      cbn [map concat]. now rewrite emit_app.
    - cbn [bind]. apply IH; [intros; apply H; now right|exact HC].
  Qed.
  Lemma read_sites_ok : forall ns ws F rest st,
    (forall n, In n ns -> sel (l_lin_lex lay n) = P (crt lay n)) -> length ws = length (filter P (map (crt lay) ns)) ->
    Forall (site_ok size nmemb) ws -> ready st (concat (map (be size) ws) ++ rest) ->
    read_sites e size nmemb lay sel ns F st
      = Val (fill F (map (place lay) (filter P (map (crt lay) ns))) ws, consume (concat (map (be size) ws)) st).
  Proof.
    induction ns as [|n ns IH]; intros ws F rest st H HL HF HR; cbn [read_sites map filter] in *.
    - destruct ws; [|cbn in HL; lia]. cbn [map concat fill]. rewrite consume_nil; [reflexivity|apply HR].
    - rewrite (H n) by now left. destruct (P (crt lay n)).
      + destruct ws as [|w ws]; [cbn in HL; lia|]. inversion HF as [|? ? Hw HF']; subst. cbn [map concat] in *. rewrite <- app_assoc in HR.
        rewrite (read_word1 e size nmemb w (concat (map (be size) ws) ++ rest)) by assumption. cbn [bind].
        rewrite (IH ws _ rest); [|intros; apply H; now right|cbn in HL; lia|exact HF'|apply consume_ready, HR].
        cbn [fill]. rewrite consume_app. pose proof (unimage_image e size nmemb w [] Hw) as U. rewrite app_nil_r in U. rewrite U. reflexivity.
      + apply (IH ws F rest); auto. intros; apply H; now right.
  Qed.
End Single.

(** ** The multi-node loops *)
  Lemma clear_ok grid len node : grid = true \/ 4 <= len -> clear_to_send grid len node = Val tt.
  Proof.
    intros H. unfold clear_to_send. destruct (Nat.ltb_spec len 4); [|now rewrite andb_false_r].
    destruct H as [->|H]; [reflexivity|lia].
  Qed.
Section Multi.
  Variables (e : endian) (size nmemb : nat) (grid : bool) (k : layout_kind) (M : machine) (L : list nat).
  Hypothesis Hs : swappable size.
  Let b := Multi grid k M L.
  Let lay := par_layout k M L.
  Let xinc := xinc_of M L.
  Variables (sel : nat -> nat -> bool) (P : list nat -> bool).

  Definition local_strip (s : nat) : Prop := forall i, i < xinc -> l_node lay (crt lay (s + i)) = l_node lay (crt lay s).
  Definition strip_coords (s : nat) : list (list nat) := map (crt lay) (seq s xinc).
  Definition good_sel (n : nat) : Prop := sel (l_node lay (crt lay n)) (l_lin lay (crt lay n)) = P (crt lay n).

  Lemma strip_sites_spec s : local_strip s -> (forall i, i < xinc -> good_sel (s + i)) ->
    strip_sites lay sel xinc (l_node lay (crt lay s)) s = map (l_lin lay) (filter P (strip_coords s)).
  Proof.
    intros HL HG. unfold strip_sites, strip_coords. replace (seq s xinc) with (map (fun x => x + s) (seq 0 xinc)) by (rewrite seq_add_map; f_equal; lia).
    rewrite map_map.
    assert (G : forall l, (forall i, In i l -> i < xinc) ->
      filter (sel (l_node lay (crt lay s))) (map (fun i => l_lin lay (crt lay (s + i))) l)
      = map (l_lin lay) (filter P (map (fun x => crt lay (x + s)) l))).
    { induction l as [|i l IH]; intros Hl; [reflexivity|]. cbn [map filter]. rewrite (Nat.add_comm i s).
      assert (Hi : i < xinc) by (apply Hl; now left).
      rewrite <- (HL i Hi) at 1. rewrite (HG i Hi). destruct (P (crt lay (s + i))); cbn [map];
        rewrite IH by (intros; apply Hl; now right); reflexivity. }
    apply G. intros i Hi. apply in_seq in Hi. lia.
  Qed.
  Lemma strip_node s c : local_strip s -> In c (strip_coords s) -> l_node lay c = l_node lay (crt lay s).
  Proof.
    intros HL Hc. unfold strip_coords in Hc. apply in_map_iff in Hc as (n & <- & Hn). apply in_seq in Hn.
    replace n with (s + (n - s)) by lia. apply HL. lia.
  Qed.


  Lemma write_strips_ok F : grid = true \/ 4 <= size * nmemb * xinc -> forall ss old,
    (forall s, In s ss -> local_strip s /\ forall i, i < xinc -> good_sel (s + i) /\ site_ok size nmemb (field_at b F (crt lay (s + i)))) ->
    forall st, coherent st -> write_strips e size nmemb grid lay sel F xinc old ss st
      = Val (emit (concat (map (fun c => be size (field_at b F c)) (filter P (flat_map strip_coords ss)))) st).
  Proof.
    intros Hroom. induction ss as [|s ss IH]; intros old H st HC; cbn [write_strips flat_map filter map concat]; [now rewrite emit_nil|].
    destruct (H s) as [HL HG]; [now left|].
    replace (if negb (l_node lay (crt lay s) =? old) then clear_to_send grid (size * nmemb * xinc) (l_node lay (crt lay s)) else Val tt)
      with (Val tt) by (destruct (negb _); [now rewrite clear_ok|reflexivity]).
    cbn [bind]. rewrite strip_sites_spec by (auto; intros; now apply HG).
    set (cs := filter P (strip_coords s)). rewrite map_length, map_map.
    replace (map (fun c => image e size (F (l_node lay (crt lay s)) (l_lin lay c))) cs) with (map (image e size) (map (field_at b F) cs)).
    2:{ rewrite map_map. apply map_ext_in. intros c Hc. apply filter_In in Hc as [Hc _]. unfold field_at. cbn [lay_of b].
        fold lay. now rewrite (strip_node s c HL Hc). }
    rewrite <- (map_length (field_at b F) cs).
    rewrite (write_words e size nmemb (map (field_at b F) cs)) by
      (auto; apply Forall_forall; intros w Hw; apply in_map_iff in Hw as (c & <- & Hc); apply filter_In in Hc as [Hc _];
       unfold strip_coords in Hc; apply in_map_iff in Hc as (n & <- & Hn); apply in_seq in Hn;
       replace n with (s + (n - s)) by lia; apply HG; lia).
    cbn [bind snd]. rewrite IH; [|intros; apply H; now right|apply emit_coherent, HC].
    rewrite emit_app, filter_app, map_app, concat_app, map_map. reflexivity.
  Qed.

  Lemma read_strips_ok : forall ss ws F rest st,
    (forall s, In s ss -> local_strip s /\ forall i, i < xinc -> good_sel (s + i)) ->
    length ws = length (filter P (flat_map strip_coords ss)) -> Forall (site_ok size nmemb) ws ->
    ready st (concat (map (be size) ws) ++ rest) ->
    read_strips e size nmemb lay sel xinc ss F st
      = Val (fill F (map (place lay) (filter P (flat_map strip_coords ss))) ws, consume (concat (map (be size) ws)) st).
  Proof.
    induction ss as [|s ss IH]; intros ws F rest st H HL HF HR; cbn [read_strips flat_map filter map] in *.
    - destruct ws; [|cbn in HL; lia]. cbn [map concat fill]. rewrite consume_nil; [reflexivity|apply HR].
    - destruct (H s) as [HS HG]; [now left|]. rewrite strip_sites_spec by auto.
      rewrite filter_app, map_app, app_length in *. set (cs := filter P (strip_coords s)) in *.
      rewrite map_length.
      pose proof (firstn_skipn (length cs) ws) as Ew. set (w1 := firstn (length cs) ws) in *. set (w2 := skipn (length cs) ws) in *.
      assert (L1 : length w1 = length cs) by (subst w1; rewrite firstn_length; lia).
      assert (L2 : length w2 = length (filter P (flat_map strip_coords ss))) by (subst w2; rewrite skipn_length; lia).
      rewrite <- Ew in HF, HR |- *. apply Forall_app in HF as [HF1 HF2]. rewrite map_app, concat_app, <- ?app_assoc in HR.
      rewrite <- L1. rewrite (read_words e size nmemb w1 (concat (map (be size) w2) ++ rest)) by assumption. cbn [bind].
      rewrite scatter_fill; [|exact L1|exact HF1|intros c Hc; apply filter_In in Hc as [Hc _]; now apply strip_node].
      rewrite (IH w2 _ rest); [|intros; apply H; now right|exact L2|exact HF2|apply consume_ready, HR].
      rewrite consume_app, fill_app by now rewrite map_length. rewrite map_app, concat_app. reflexivity.
  Qed.
End Multi.

(** ** Facts about builds *)
Lemma lay_ok b : build_ok b -> layout_ok (lay_of b).
Proof. destruct b; cbn [build_ok lay_of]; [apply scalar_layout_ok|apply par_layout_ok]. Qed.
Lemma place_inj b c c' : build_ok b -> in_lattice (build_size b) c -> in_lattice (build_size b) c' ->
  place (lay_of b) c = place (lay_of b) c' -> c = c'.
Proof.
  intros HB Hc Hc' E. destruct (lay_ok b HB) as (_ & _ & B & _). destruct (B c Hc) as [_ <-]. destruct (B c' Hc') as [_ <-].
  unfold place in E. now rewrite E.
Qed.
Lemma size_ok b : build_ok b -> 0 < length (build_size b) /\ positive (build_size b).
Proof. intros H. destruct (lay_ok b H) as (A & B & _). auto. Qed.
Lemma crt_order b : build_ok b -> map (crt (lay_of b)) (seq 0 (volume (build_size b))) = file_order (build_kind b) (build_size b).
Proof. intros H. unfold crt. apply map_crtesn. apply size_ok, H. Qed.
Lemma crt_in b n : build_ok b -> n < volume (build_size b) -> in_lattice (build_size b) (crt (lay_of b) n).
Proof. intros H Hn. apply crtesn_in; [apply size_ok, H|exact Hn]. Qed.
Lemma crt_inj b n m : build_ok b -> n < volume (build_size b) -> m < volume (build_size b) ->
  crt (lay_of b) n = crt (lay_of b) m -> n = m.
Proof.
  intros H Hn Hm E. destruct (size_ok b H) as [A B].
  apply (f_equal (fun c => local_site (build_kind b) c (build_size b))) in E. unfold crt in E.
  change (l_kind (lay_of b)) with (build_kind b) in E. change (l_size (lay_of b)) with (build_size b) in E.
  now rewrite !local_site_crtesn in E by auto.
Qed.

Lemma NoDup_map_in {A B} (f : A -> B) l : NoDup l -> (forall x y, In x l -> In y l -> f x = f y -> x = y) -> NoDup (map f l).
Proof.
  induction 1 as [|x l NI ND IH]; intros H; cbn [map]; constructor.
  - rewrite in_map_iff. intros (y & E & Hy). apply NI. rewrite <- (H y x); auto; now (right + left).
  - apply IH. intros; apply H; auto; now right.
Qed.
Lemma coords_nodup b start stop : build_ok b -> stop <= volume (build_size b) ->
  NoDup (map (crt (lay_of b)) (seq start (stop - start))).
Proof.
  intros H Hs. apply NoDup_map_in; [apply seq_NoDup|]. intros n m Hn Hm. apply in_seq in Hn. apply in_seq in Hm. apply crt_inj; auto; lia.
Qed.
Lemma places_nodup b P start stop : build_ok b -> stop <= volume (build_size b) ->
  NoDup (map (place (lay_of b)) (filter P (map (crt (lay_of b)) (seq start (stop - start))))).
Proof.
  intros H Hs. apply NoDup_map_in; [apply NoDup_filter, coords_nodup; auto|].
  assert (G : forall x, In x (filter P (map (crt (lay_of b)) (seq start (stop - start)))) -> in_lattice (build_size b) x).
  { intros x Hx. apply filter_In in Hx as [Hx _]. apply in_map_iff in Hx as (n & <- & Hn). apply in_seq in Hn. apply crt_in; auto. lia. }
  intros x y Hx Hy. apply place_inj; auto.
Qed.

(** The first extent of the local lattice. *)
Lemma xinc_spec k M L : admP k M L -> xinc_of M L = get L 0 / get (mgrid M) 0 /\ 0 < xinc_of M L /\ Nat.divide (xinc_of M L) (get L 0)
  /\ Nat.divide (xinc_of M L) (volume L).
Proof.
  intros (_ & HL & Hp & _ & (HG & _) & HM & HD). assert (E : xinc_of M L = get L 0 / get (mgrid M) 0).
  { unfold xinc_of, subgrid. rewrite get_map_seq by exact HL. reflexivity. }
  specialize (HD 0 HL). specialize (Hp 0 HL). specialize (HG 0 ltac:(lia)). destruct HD as [z Hz].
  assert (E2 : xinc_of M L = z * min_extent k 0).
  { rewrite E, Hz. replace (z * (get (mgrid M) 0 * min_extent k 0)) with (z * min_extent k 0 * get (mgrid M) 0) by lia.
    apply Nat.div_mul. lia. }
  assert (D : Nat.divide (xinc_of M L) (get L 0)) by (exists (get (mgrid M) 0); lia).
  split; [exact E|]. split; [nia|]. split; [exact D|].
  destruct L as [|l L]; [cbn in HL; lia|]. cbn [volume]. change (get (l :: L) 0) with l in D. now apply Nat.divide_mul_l.
Qed.

(** Strips in lexicographic order do not cross nodes. *)
Lemma lexnum_head l L x c : x < l -> (x + l * lexnum L c) mod l = x /\ (x + l * lexnum L c) / l = lexnum L c.
Proof.
  intros H. rewrite (Nat.add_comm x), (Nat.mul_comm l). split.
  - rewrite Nat.add_comm, Nat.mod_add by lia. now apply Nat.mod_small.
  - rewrite Nat.div_add_l by lia. rewrite Nat.div_small by lia. lia.
Qed.
Lemma lexnum_inj L c c' : in_lattice L c -> in_lattice L c' -> lexnum L c = lexnum L c' -> c = c'.
Proof.
  intros H. revert c'. induction H as [|x l c L Hx Hc IH]; intros c' H' E; inversion H' as [|y l' d L' Hy Hd]; subst; [reflexivity|].
  cbn [lexnum] in E. destruct (lexnum_head l L x c Hx) as [A B]. destruct (lexnum_head l L y d Hy) as [A' B'].
  rewrite E in A, B. f_equal; [congruence|]. apply IH; [exact Hd|congruence].
Qed.
Lemma lex_crt k L n : k <> CB3D -> 0 < length L -> positive L -> n < volume L -> lexnum L (crtesn k n L) = n.
Proof.
  intros Hk Hl Hp Hn. rewrite <- (local_site_lexnum k) by (auto; now apply length_crtesn). now apply local_site_crtesn.
Qed.
Lemma local_lex (grid : bool) k M L s : k <> CB3D -> admP k M L -> Nat.divide (xinc_of M L) s -> s + xinc_of M L <= volume L ->
  local_strip k M L s.
Proof.
  intros Hk HA HD Hs i Hi. pose proof (xinc_spec k M L HA) as (_ & Hx & Dx & _).
  assert (HB : build_ok (Multi grid k M L)) by exact HA. destruct (size_ok _ HB) as [HL Hp]. cbn [build_size lay_of par_layout l_size] in HL, Hp.
  pose proof (crt_in (Multi grid k M L) (s + i) HB ltac:(cbn; lia)) as I1. pose proof (crt_in (Multi grid k M L) s HB ltac:(cbn; lia)) as I2.
  cbn [build_size lay_of par_layout l_size] in I1, I2. unfold crt in *. cbn [l_kind l_size par_layout] in *.
  pose proof (lex_crt k L (s + i) Hk HL Hp ltac:(lia)) as E1. pose proof (lex_crt k L s Hk HL Hp ltac:(lia)) as E2.
  set (c1 := crtesn k (s + i) L) in *. set (c2 := crtesn k s L) in *. clearbody c1 c2.
  destruct L as [|l L]; [cbn in HL; lia|].
  destruct c1 as [|x1 d1]; [inversion I1|]. destruct c2 as [|x2 d2]; [inversion I2|].
  assert (H1 : x1 < l /\ in_lattice L d1) by (inversion I1; auto). destruct H1 as [H1 D1].
  assert (H2 : x2 < l /\ in_lattice L d2) by (inversion I2; auto). destruct H2 as [H2 D2]. cbn [lexnum] in E1, E2.
  cbn [l_node par_layout]. unfold nodeNumberP. f_equal. apply map_ext_in. intros j Hj. apply in_seq in Hj.
  change (get (l :: L) 0) with l in Dx. fold (xinc_of M (l :: L)) in *. remember (xinc_of M (l :: L)) as xi.
  destruct Dx as [a Ha]. destruct HD as [q Hq].
  assert (X2 : exists r, x2 = r * xi).
  { exists (q - a * lexnum L d2). rewrite Nat.mul_sub_distr_r. nia. }
  destruct X2 as [r Hr]. assert (R : x2 + i < l).
  { assert (r < a) by nia. nia. }
  assert (E3 : x1 = x2 + i /\ lexnum L d1 = lexnum L d2).
  { destruct (lexnum_head l L x1 d1 H1) as [A1 B1]. destruct (lexnum_head l L (x2 + i) d2 R) as [A2 B2].
    replace (x1 + l * lexnum L d1) with (x2 + i + l * lexnum L d2) in A1, B1 by lia. split; congruence. }
  destruct E3 as [E3 E4]. apply lexnum_inj in E4; auto. subst d1.
  destruct j as [|j]; [|reflexivity]. cbn [get nth]. change (get (x1 :: d2) 0) with x1. change (get (x2 :: d2) 0) with x2.
  change (get (subgrid M (l :: L)) 0) with (xinc_of M (l :: L)). rewrite <- Heqxi, E3, Hr.
  rewrite Nat.div_mul by lia. rewrite Nat.div_add_l by lia. rewrite (Nat.div_small i) by lia. lia.
Qed.

Lemma strips_flat start stop x : 0 < x -> start <= stop -> Nat.divide x start -> Nat.divide x stop ->
  flat_map (fun s => seq s x) (strips start stop x) = seq start (stop - start) /\
  forall s, In s (strips start stop x) -> Nat.divide x s /\ start <= s /\ s + x <= stop.
Proof.
  intros Hx Hs [a Ha] [c Hc]. assert (E : (stop - start + (x - 1)) / x = c - a).
  { subst. rewrite <- Nat.mul_sub_distr_r. rewrite Nat.div_add_l by lia. rewrite (Nat.div_small (x - 1)) by lia. lia. }
  unfold strips. rewrite E. assert (Hac : a <= c) by nia. split.
  - replace (stop - start) with (x * (c - a)) by (subst; rewrite <- Nat.mul_sub_distr_r; lia).
    assert (G : forall n m, flat_map (fun s => seq s x) (map (fun j => start + j * x) (seq m n)) = seq (start + x * m) (x * n)).
    { induction n as [|n IH]; intros m; cbn [seq map flat_map]; [now rewrite Nat.mul_0_r|].
      rewrite IH. replace (x * S n) with (x + x * n) by lia. rewrite seq_app. f_equal; [f_equal; lia|]. f_equal. lia. }
    rewrite G. f_equal. lia.
  - intros s H. apply in_map_iff in H as (j & <- & Hj). apply in_seq in Hj. split; [exists (a + j); nia|]. split; [lia|].
    assert (j + 1 <= c - a) by lia. nia.
Qed.

(** ** All loops at once *)
Definition gen_write e size nmemb (b : build) (sel : nat -> nat -> bool) (F : field) (start stop : nat) (st : stream) : res stream :=
  match b with
  | Single k L => write_sites e size nmemb (scalar_layout k L) (sel 0) F (seq start (stop - start)) st
  | Multi grid k M L => write_strips e size nmemb grid (par_layout k M L) sel F (xinc_of M L) 0 (strips start stop (xinc_of M L)) st
  end.
Definition gen_read e size nmemb (b : build) (sel : nat -> nat -> bool) (F : field) (start stop : nat) (st : stream) : res (field * stream) :=
  match b with
  | Single k L => read_sites e size nmemb (scalar_layout k L) (sel 0) (seq start (stop - start)) F st
  | Multi grid k M L => read_strips e size nmemb (par_layout k M L) sel (xinc_of M L) (strips start stop (xinc_of M L)) F st
  end.
Definition aligned (b : build) (start stop : nat) : Prop :=
  match b with
  | Single _ _ => True
  | Multi _ k M L => Nat.divide (xinc_of M L) start /\ Nat.divide (xinc_of M L) stop /\
      forall s, In s (strips start stop (xinc_of M L)) -> local_strip k M L s
  end.
Definition sel_spec (b : build) (sel : nat -> nat -> bool) (P : list nat -> bool) : Prop :=
  forall c, in_lattice (build_size b) c -> sel (l_node (lay_of b) c) (l_lin (lay_of b) c) = P c.
Definition coords (b : build) (P : list nat -> bool) (start stop : nat) : list (list nat) :=
  filter P (map (crt (lay_of b)) (seq start (stop - start))).

Lemma flat_strips k M L ss : flat_map (strip_coords k M L) ss = map (crt (par_layout k M L)) (flat_map (fun s => seq s (xinc_of M L)) ss).
Proof. unfold strip_coords. induction ss as [|s ss IH]; [reflexivity|]. cbn [flat_map]. now rewrite map_app, IH. Qed.

Lemma gen_write_ok e size nmemb b sel P F start stop st : swappable size -> build_ok b -> strip_room b (size * nmemb) ->
  start <= stop <= volume (build_size b) -> aligned b start stop -> sel_spec b sel P -> field_ok size nmemb b F -> coherent st ->
  gen_write e size nmemb b sel F start stop st = Val (emit (concat (map (fun c => be size (field_at b F c)) (coords b P start stop))) st).
Proof.
  intros Hs HB HR Hr HA HS HF HC. destruct b as [k L|grid k M L]; cbn [gen_write].
  - unfold coords. cbn [lay_of]. apply write_sites_ok; [exact Hs| |exact HC]. intros n Hn. apply in_seq in Hn.
    assert (I : in_lattice (build_size (Single k L)) (crt (lay_of (Single k L)) n)) by (apply crt_in; auto; lia).
    split; [|apply HF, I]. exact (HS _ I).
  - destruct HA as (A1 & A2 & A3). destruct (xinc_spec k M L HB) as (E & Hx & _ & _).
    destruct (strips_flat start stop (xinc_of M L) Hx ltac:(lia) A1 A2) as [S1 S2].
    rewrite (write_strips_ok e size nmemb grid k M L Hs sel P F); [| | |exact HC].
    + rewrite flat_strips, S1. reflexivity.
    + cbn [strip_room] in HR. rewrite <- E in HR. exact HR.
    + intros s H. split; [now apply A3|]. intros i Hi. destruct (S2 s H) as (_ & _ & B).
      assert (I : in_lattice (build_size (Multi grid k M L)) (crt (lay_of (Multi grid k M L)) (s + i))) by (apply crt_in; auto; lia).
      split; [exact (HS _ I)|exact (HF _ I)].
Qed.
Lemma gen_read_ok e size nmemb b sel P F start stop ws rest st : swappable size -> build_ok b ->
  start <= stop <= volume (build_size b) -> aligned b start stop -> sel_spec b sel P ->
  length ws = length (coords b P start stop) -> Forall (site_ok size nmemb) ws -> ready st (concat (map (be size) ws) ++ rest) ->
  gen_read e size nmemb b sel F start stop st
    = Val (fill F (map (place (lay_of b)) (coords b P start stop)) ws, consume (concat (map (be size) ws)) st).
Proof.
  intros Hs HB Hr HA HS HL HF HR. destruct b as [k L|grid k M L]; cbn [gen_read].
  - unfold coords in *. cbn [lay_of] in *. apply (read_sites_ok e size nmemb k L Hs (sel 0) P _ ws F rest st); auto. intros n Hn. apply in_seq in Hn.
    assert (I : in_lattice (build_size (Single k L)) (crt (lay_of (Single k L)) n)) by (apply crt_in; auto; lia). exact (HS _ I).
  - destruct HA as (A1 & A2 & A3). destruct (xinc_spec k M L HB) as (E & Hx & _ & _).
    destruct (strips_flat start stop (xinc_of M L) Hx ltac:(lia) A1 A2) as [S1 S2].
    rewrite (read_strips_ok e size nmemb k M L Hs sel P _ ws F rest st); [| | |exact HF|exact HR].
    + unfold coords. rewrite flat_strips, S1. reflexivity.
    + intros s H. split; [now apply A3|]. intros i Hi. destruct (S2 s H) as (_ & _ & B).
      assert (I : in_lattice (build_size (Multi grid k M L)) (crt (lay_of (Multi grid k M L)) (s + i))) by (apply crt_in; auto; lia).
      exact (HS _ I).
    + rewrite flat_strips, S1. exact HL.
Qed.

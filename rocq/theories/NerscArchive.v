(** Whole gauge archives. *)
From Coq Require Import String List Arith NArith ZArith Bool Ascii Lia.
From Verif Require Import Base LayoutModel LayoutSpec LayoutProofs LayoutOk SetModel SetProofs MapProofs
  CrcModel CrcSpec CrcProofs SwapProofs IoModel IoSpec IoProofs LatIoModel LatIoSpec LatIoProofs LatIoOk
  NerscModel NerscSpec NerscProofs NerscAlgebra NerscHeader NerscHeaderSpec NerscText NerscHeaderOk.
Import ListNotations.
Local Open Scope nat_scope.
Local Arguments crc32 : simpl never.

Lemma skip_blanks_unindented s : unindented s (skip_blanks s).
Proof.
  unfold unindented. induction s as [|c s IH]; [exists 0; split; [reflexivity|discriminate]|]. cbn [skip_blanks].
  destruct (N.eqb_spec c 32) as [->|H].
  - destruct IH as (n & E & H). exists (S n). split; [cbn [repeat app]; now f_equal|exact H].
  - exists 0. split; [reflexivity|]. cbn. congruence.
Qed.
Lemma skip_ws_show {F} (show : F -> list N) x : prints_well show -> skip_ws (show x) = show x.
Proof.
  intros H. destruct (H x) as (_ & _ & c & r & -> & H1 & H2). cbn [skip_ws]. replace (is_space c) with false; [reflexivity|].
  unfold is_space. lia.
Qed.

(** A file that was just written can be read from its start. *)
Lemma written bs : ready (file_reader (s_data (emit bs file_writer))) bs.
Proof.
  replace (s_data (emit bs file_writer)) with bs.
  - split; [reflexivity|]. split; [intros X; discriminate|]. exists []. split; reflexivity.
  - destruct (emit_wrote bs file_writer) as (D & _).
    + repeat split; auto.
    + rewrite D. change (s_data file_writer) with (@nil N). now rewrite firstn_nil, skipn_nil, app_nil_r.
Qed.
Lemma written2 a b : emit b (emit a file_writer) = emit (a ++ b) file_writer.
Proof. apply emit_app. Qed.

(** Any words are the words of some configuration of links. *)
Lemma split_sites (cs : list (list nat)) n : NoDup cs -> forall W : list N, length W = n * length cs ->
  exists f, flat_map f cs = W /\ forall c, In c cs -> length (f c) = n.
Proof.
  induction 1 as [|c cs NI ND IH]; intros W HW.
  - exists (fun _ => []). split; [cbn in *; destruct W; [reflexivity|cbn in HW; lia]|intros ? []].
  - cbn [length] in HW. destruct (IH (skipn n W)) as (f & E & Hf); [rewrite skipn_length; lia|].
    exists (fun d => if list_eq_dec Nat.eq_dec d c then firstn n W else f d). split.
    + cbn [flat_map]. destruct (list_eq_dec Nat.eq_dec c c); [|congruence].
      rewrite (flat_map_ext_in _ f), E by (intros d Hd; destruct (list_eq_dec Nat.eq_dec d c); [congruence|reflexivity]). apply firstn_skipn.
    + intros d Hd. destruct (list_eq_dec Nat.eq_dec d c); [rewrite firstn_length; lia|]. destruct Hd as [->|Hd]; [congruence|]. now apply Hf.
Qed.
Lemma split_dirs n : forall nd a (l : list N), length l = n * nd ->
  flat_map (fun dd => firstn n (skipn (n * (dd - a)) l)) (seq a nd) = l.
Proof.
  induction nd as [|nd IH]; intros a l Hl; [cbn in *; destruct l; [reflexivity|cbn in Hl; lia]|]. cbn [seq flat_map].
  replace (n * (a - a)) with 0 by lia. cbn [skipn].
  transitivity (firstn n l ++ skipn n l); [f_equal|apply firstn_skipn].
  etransitivity; [|apply (IH (S a) (skipn n l)); rewrite skipn_length; lia]. apply flat_map_ext_in. intros d Hd. apply in_seq in Hd.
  rewrite skipn_skipn'. do 2 f_equal. replace (d - a) with (S (d - S a)) by lia. lia.
Qed.
Lemma split_words b nd n size (W : list N) : build_ok b -> length W = n * nd * length (site_order b) -> bounded size W ->
  exists w, all_words b nd w = W /\ forall dd c, dd < nd -> in_lattice (build_size b) c -> site_ok size n (w dd c).
Proof.
  intros HB HL HW. destruct (split_sites (site_order b) (n * nd) (order_nodup b HB) W HL) as (f & E & Hf).
  exists (fun dd c => firstn n (skipn (n * (dd - 0)) (f c))).
  assert (A : forall c, In c (site_order b) -> flat_map (fun dd => firstn n (skipn (n * (dd - 0)) (f c))) (seq 0 nd) = f c)
    by (intros c Hc; apply split_dirs; now apply Hf).
  split; [unfold all_words; rewrite (flat_map_ext_in _ f); auto|].
  intros dd c Hd Hc. assert (Hc' : In c (site_order b)) by now apply order_in. split.
  - rewrite firstn_length, skipn_length, Hf by exact Hc'. nia.
  - unfold bounded in HW. rewrite <- E in HW. rewrite Forall_forall in *. intros v Hv. apply HW. apply in_flat_map. exists c. split; [exact Hc'|].
    rewrite <- (A c Hc'). apply in_flat_map. exists dd. split; [apply in_seq; lia|exact Hv].
Qed.

Section Archive.
  Context {A F : Type} (rO rI : A) (radd rmul rsub : A -> A -> A) (ropp : A -> A).
  Context (narrow : A -> N) (cast : nat -> N -> A).
  Context (show : F -> list N) (strtod : list N -> option F).
  Context (mesplq : build -> @gauge A -> F * F) (close : F -> F -> bool).
  Hypothesis HS : prints_well show.
  Hypothesis HN : forall x, (narrow x < 2 ^ 32)%N.

  Notation wr L := (writeArchiv show L narrow mesplq).
  Notation rd L := (readArchiv strtod L rO radd rmul rsub cast mesplq close).

  (** The header as it is written. *)
  Definition filled (b : build) (h : @header F) (u : @gauge A) (c : N) : header :=
    set_checksum c (set_link (snd (mesplq b u)) (set_w_plaq (fst (mesplq b u)) h)).
  Definition file_words (b : build) (n : nat) (u : @gauge A) : list N :=
    all_words b 4 (fun dd c => words_of narrow n (link_at b u dd c)).

  Lemma filled_ok L b h u c : header_ok L h -> (c < 2 ^ 32)%N -> header_ok L (filled b h u c).
  Proof. intros (H1 & H2 & H3 & H4 & H5 & H6 & H7) Hc. unfold header_ok. cbn. auto 10. Qed.
  Lemma filled_fit b h u c : lines_fit h -> lines_fit (filled b h u c).
  Proof. intros H. exact H. Qed.

  Lemma write_archive_ok e b h u : build_ok b -> mat_ok (mat_size h) -> header_ok (build_size b) h ->
    let h1 := filled b h u (sum_of (file_words b (mat_size h) u)) in
    wr (build_size b) e b h u = Val (h1, emit (text_of show (build_size b) h1 ++ be 4 (file_words b (mat_size h) u)) file_writer).
  Proof.
    intros HB HM HO h1. unfold writeArchiv.
    change (mat_size (set_link (snd (mesplq b u)) (set_w_plaq (fst (mesplq b u)) h))) with (mat_size h).
    rewrite (checksum_ok rO radd rmul rsub narrow cast) by assumption. cbn [bind]. fold (file_words b (mat_size h) u). fold (filled b h u (sum_of (file_words b (mat_size h) u))). fold h1.
    change (mat_size (set_checksum (sum_of (file_words b (mat_size h) u)) (set_link (snd (mesplq b u)) (set_w_plaq (fst (mesplq b u)) h)))) with (mat_size h).
    rewrite (write_header_ok show strtod); [|exact HS|apply filled_ok; [exact HO|apply sum_of_lt]]. cbn [bind].
    rewrite (write_payload_ok rO radd rmul rsub narrow cast); [|exact HB|exact HM|exact HN|].
    - cbn [bind]. fold (file_words b (mat_size h) u). rewrite emit_app. reflexivity.
    - apply (emit_wrote _ file_writer). repeat split; auto.
  Qed.

  Lemma words_len b n u : build_ok b -> mat_ok n -> length (file_words b n u) = n * 4 * length (site_order b).
  Proof.
    intros HB HM. unfold file_words, all_words. induction (site_order b) as [|c cs IH]; [cbn; lia|]. cbn [flat_map length]. rewrite app_length, IH.
    destruct (flat_site_ok rO radd rmul rsub narrow cast 4 n (fun dd => words_of narrow n (link_at b u dd c)) (seq 0 4)) as [E _]; [intros; now apply words_site_ok|].
    rewrite E, seq_length. lia.
  Qed.
  Lemma words_bounded b n u : mat_ok n -> bounded 4 (file_words b n u).
  Proof. intros HM. apply bounded_flat. intros c _. apply bounded_flat. intros dd _. now apply words_site_ok. Qed.
  Lemma parts4 (l : list N) : flat_map (parts 4) l = l.
  Proof. induction l as [|x l IH]; [reflexivity|]. cbn. now rewrite IH. Qed.

  Lemma order_eq b1 b2 : build_size b1 = build_size b2 -> (build_kind b1 = CB3D <-> build_kind b2 = CB3D) -> site_order b1 = site_order b2.
  Proof.
    intros E K. unfold site_order. rewrite E. destruct (build_kind b1), (build_kind b2); auto; exfalso; try (destruct K as [K _]; specialize (K eq_refl); discriminate);
      try (destruct K as [_ K]; specialize (K eq_refl); discriminate).
  Qed.

  Theorem archive_ok e1 e2 b1 b2 h h0 u u0 : build_ok b1 -> build_ok b2 -> build_size b1 = build_size b2 ->
    (build_kind b1 = CB3D <-> build_kind b2 = CB3D) -> mat_size h = 12 -> header_ok (build_size b1) h -> lines_fit h ->
    exists st G, let h1 := filled b1 h u (sum_of (file_words b1 12 u)) in
      let h2 := result show strtod (build_size b1) h1 (set_mat_size 18 (set_nrow (repeat None 4) h0)) in
      wr (build_size b1) e1 b1 h u = Val (h1, st) /\
      rd (build_size b2) e2 b2 h0 u0 (s_data st)
      = (if close (w_plaq h2) (fst (mesplq b2 G)) && close (link h2) (snd (mesplq b2 G)) then Val (h2, G) else Abort) /\
      forall dd c, dd < 4 -> in_lattice (build_size b2) c ->
        link_at b2 G dd c = matrix_of rO radd rmul rsub 12 (map (cast 4) (words_of narrow 12 (link_at b1 u dd c))).
  Proof.
    intros HB1 HB2 ES EK EM HO HF. pose proof (order_eq b1 b2 ES EK) as EO.
    assert (HM : mat_ok 12) by now left. assert (HM' : mat_ok (mat_size h)) by (rewrite EM; exact HM).
    set (h1 := filled b1 h u (sum_of (file_words b1 12 u))). set (W := file_words b1 12 u).
    set (text := text_of show (build_size b1) h1).
    assert (HO1 : header_ok (build_size b1) h1) by (apply filled_ok; [exact HO|apply sum_of_lt]).
    set (w := fun dd c => words_of narrow 12 (link_at b1 u dd c)).
    assert (EW : W = all_words b2 4 w) by (unfold W, file_words, all_words; rewrite EO; reflexivity).
    pose proof (written (text ++ be 4 W)) as R0.
    set (st := emit (text ++ be 4 W) file_writer) in *. set (rst := file_reader (s_data st)) in *.
    assert (R1 : ready (consume text rst) (be 4 W)) by now apply consume_ready.
    assert (HW : forall dd c, dd < 4 -> in_lattice (build_size b2) c -> site_ok 4 12 (w dd c)) by (intros; now apply words_site_ok).
    rewrite EW in R1. rewrite <- (app_nil_r (be 4 (all_words b2 4 w))) in R1.
    destruct (read_payload_ok rO radd rmul rsub narrow cast e2 4 12 4 HM (or_introl eq_refl) w b2 u0 [] (consume text rst) HB2 HW R1) as (G & ER & EG).
    exists st, G. split; [|split].
    - rewrite write_archive_ok by assumption. rewrite EM. reflexivity.
    - unfold readArchiv. fold rst. rewrite <- ES.
      rewrite (read_header_ok show strtod (build_size b1) h1 h0 (be 4 W) rst HS HO1 (filled_fit _ _ _ _ HF) R0). cbn [bind].
      set (h2 := result show strtod (build_size b1) h1 (set_mat_size 18 (set_nrow (repeat None 4) h0))).
      change (mat_size h2) with 12. change (float_size h2) with 4. fold text. unfold NerscHeader.Nd. rewrite ER. cbn [bind].
      rewrite parts4, <- EW. replace (checksum h2) with (sum_of W).
      + rewrite N.eqb_refl. cbn [negb]. destruct (close (w_plaq h2) (fst (mesplq b2 G))); cbn [negb andb]; [|reflexivity].
        destruct (close (link h2) (snd (mesplq b2 G))); reflexivity.
      + unfold h2, result, after2, after_dims, after1. cbn [checksum set_float_size set_archive_date set_creation_date set_creator_hardware set_creator
          set_sequence_number set_ensemble_label set_ensemble_id set_nrow set_mat_size]. unfold setw, setl.
        destruct (strtod (skip_ws (show (w_plaq h1)))), (strtod (skip_ws (show (link h1)))); reflexivity.
    - exact EG.
  Qed.

  (** Three rows: the header says two, the checksums differ. *)
  Theorem archive_three_rows e1 e2 b1 b2 h h0 u u0 : build_ok b1 -> build_ok b2 -> build_size b1 = build_size b2 ->
    (build_kind b1 = CB3D <-> build_kind b2 = CB3D) -> mat_size h = 18 -> header_ok (build_size b1) h -> lines_fit h ->
    sum_of (skipn (12 * 4 * volume (build_size b1)) (file_words b1 18 u)) <> 0%N ->
    exists h1 st, wr (build_size b1) e1 b1 h u = Val (h1, st) /\ rd (build_size b2) e2 b2 h0 u0 (s_data st) = Abort.
  Proof.
    intros HB1 HB2 ES EK EM HO HF HD. pose proof (order_eq b1 b2 ES EK) as EO.
    assert (HM : mat_ok 18) by now right. assert (HM' : mat_ok (mat_size h)) by (rewrite EM; exact HM).
    assert (EV : length (site_order b2) = volume (build_size b1)) by (rewrite <- EO, <- order_crt, map_length, seq_length by exact HB1; reflexivity).
    set (h1 := filled b1 h u (sum_of (file_words b1 18 u))). set (W := file_words b1 18 u) in *.
    set (text := text_of show (build_size b1) h1).
    assert (HO1 : header_ok (build_size b1) h1) by (apply filled_ok; [exact HO|apply sum_of_lt]).
    set (n := 12 * 4 * volume (build_size b1)) in *.
    assert (LW : length W = 18 * 4 * volume (build_size b1)) by (unfold W; rewrite words_len, EO, EV by assumption; reflexivity).
    destruct (split_words b2 4 12 4 (firstn n W) HB2) as (w & Ew & Hw).
    { rewrite firstn_length, EV, LW. unfold n. lia. }
    { pose proof (words_bounded b1 18 u HM) as BW. fold W in BW. unfold bounded in *. rewrite <- (firstn_skipn n W) in BW. now apply Forall_app in BW. }
    pose proof (written (text ++ be 4 W)) as R0.
    set (st := emit (text ++ be 4 W) file_writer) in *. set (rst := file_reader (s_data st)) in *.
    assert (R1 : ready (consume text rst) (be 4 W)) by now apply consume_ready.
    rewrite <- (firstn_skipn n W) in R1. change (be 4) with (image BigE 4) in R1. rewrite image_app in R1. rewrite <- Ew in R1.
    destruct (read_payload_ok rO radd rmul rsub narrow cast e2 4 12 4 (or_introl eq_refl) (or_introl eq_refl) w b2 u0 _ (consume text rst) HB2 Hw R1) as (G & ER & EG).
    exists h1, st. split.
    - rewrite write_archive_ok by assumption. rewrite EM. reflexivity.
    - unfold readArchiv. fold rst. rewrite <- ES.
      rewrite (read_header_ok show strtod (build_size b1) h1 h0 (be 4 W) rst HS HO1 (filled_fit _ _ _ _ HF) R0). cbn [bind].
      set (h2 := result show strtod (build_size b1) h1 (set_mat_size 18 (set_nrow (repeat None 4) h0))).
      change (mat_size h2) with 12. change (float_size h2) with 4. fold text. unfold NerscHeader.Nd. rewrite ER. cbn [bind].
      rewrite parts4, Ew. replace (checksum h2) with (sum_of W).
      + replace (sum_of (firstn n W) =? sum_of W)%N with false; [reflexivity|]. symmetry. apply N.eqb_neq. intros E.
        rewrite <- (firstn_skipn n W) in E at 2. unfold sum_of in E, HD.
        fold (nsum (firstn n W ++ skipn n W)) in E. fold (nsum (firstn n W)) in E. fold (nsum (skipn n W)) in HD. rewrite nsum_app in E.
        set (x := nsum (firstn n W)) in *. set (y := nsum (skipn n W)) in *. apply HD. clear - E.
        change (2 ^ 32)%N with 4294967296%N in *.
        pose proof (N.div_mod x 4294967296 ltac:(discriminate)). pose proof (N.div_mod (x + y) 4294967296 ltac:(discriminate)).
        rewrite <- E in H0. set (r := (x mod 4294967296)%N) in *. set (q1 := (x / 4294967296)%N) in *. set (q2 := ((x + y) / 4294967296)%N) in *.
        assert (Y : y = ((q2 - q1) * 4294967296)%N) by lia. rewrite Y. apply N.mod_mul. discriminate.
      + unfold h2, result, after2, after_dims, after1. cbn [checksum set_float_size set_archive_date set_creation_date set_creator_hardware set_creator
          set_sequence_number set_ensemble_label set_ensemble_id set_nrow set_mat_size]. unfold setw, setl.
        destruct (strtod (skip_ws (show (w_plaq h1)))), (strtod (skip_ws (show (link h1)))); reflexivity.
  Qed.

  (** Lines that are too long. *)
  Theorem archive_long e1 e2 b1 b2 h h0 u u0 : build_ok b1 -> build_size b1 = build_size b2 -> mat_ok (mat_size h) ->
    header_ok (build_size b1) h -> ~ lines_fit h ->
    exists h1 st, wr (build_size b1) e1 b1 h u = Val (h1, st) /\ rd (build_size b2) e2 b2 h0 u0 (s_data st) = Abort.
  Proof.
    intros HB1 ES HM HO HF. eexists. eexists. split; [now apply write_archive_ok|].
    unfold readArchiv. rewrite <- ES. set (h1 := filled _ _ _ _).
    rewrite (read_header_long show strtod (build_size b1) h1 h0 (be 4 (file_words b1 (mat_size h) u))); [reflexivity|exact HS| |exact HF|].
    - apply filled_ok; [exact HO|apply sum_of_lt].
    - apply written.
  Qed.
End Archive.

(** ** The checksum in XML *)
Lemma digits_ge base s : (1 <= base)%N -> forall n a, (a <= snd (fst (digits base n a s)))%N.
Proof.
  intros HB. induction s as [|c s IH]; intros n a; cbn [digits]; [cbn; lia|]. destruct (digit base c) as [d|]; [|cbn; lia].
  specialize (IH (S n) (base * a + d)%N). nia.
Qed.
Lemma digit_more c d : digit 10 c = Some d -> digit 16 c = Some d /\ (d < 10)%N.
Proof.
  unfold digit. intros H. match type of H with (if (?x <? _)%N then _ else _) = _ => set (v := x) in * end.
  destruct (N.ltb_spec v 10); [|discriminate]. injection H as <-. destruct (N.ltb_spec v 16); [auto|lia].
Qed.
Lemma digit_only c d : digit 10 c = None -> digit 16 c = Some d -> (10 <= d)%N.
Proof.
  unfold digit. intros H H'. match type of H with (if (?x <? _)%N then _ else _) = _ => set (v := x) in * end.
  destruct (N.ltb_spec v 10); [discriminate|]. destruct (N.ltb_spec v 16); [congruence|discriminate].
Qed.
Lemma dec_hex s : Forall (fun c => digit 16 c <> None) s -> forall n a m a', (a <= a')%N -> (a = a' -> (a < 10)%N) ->
  let x := snd (fst (digits 10 n a s)) in let y := snd (fst (digits 16 m a' s)) in (x <= y)%N /\ (x = y -> (y < 10)%N).
Proof.
  induction 1 as [|c s Hc HF IH]; intros n a m a' H1 H2; cbn [digits].
  - cbn. split; [exact H1|]. intros E. specialize (H2 E). lia.
  - destruct (digit 10 c) as [d|] eqn:E10.
    + apply digit_more in E10 as [E16 Hd]. rewrite E16. apply IH; nia.
    + destruct (digit 16 c) as [d|] eqn:E16; [|congruence]. pose proof (digit_only c d E10 E16).
      pose proof (digits_ge 16 s ltac:(lia) (S m) (16 * a' + d)%N). cbn [fst snd]. cbv zeta. nia.
Qed.
Theorem xml_checksum_ok c : xml_checksum c = c <-> (c < 10)%N.
Proof.
  destruct (show_loop_ok 16 (S (N.to_nat (N.size c))) ltac:(lia) c 0 0 (size_bound 16 c ltac:(lia)) ltac:(lia)) as [F (k & Hk & D)].
  fold (show_nat 16 c) in F, D. rewrite N.mul_0_l, N.add_0_l in D. split.
  - intros E. assert (F' : Forall (fun x => digit 16 x <> None) (show_nat 16 c)) by (eapply Forall_impl; [|exact F]; intros x [X _]; exact X).
    destruct (dec_hex _ F' 0 0%N 0 0%N ltac:(lia) ltac:(lia)) as [L1 L2]. rewrite D in L1, L2. cbn [fst snd] in L1, L2. unfold xml_checksum in E.
    destruct (digits 10 0 0 (show_nat 16 c)) as [[n v] r]. cbn [fst snd] in *. destruct n as [|n]; [lia|]. apply L2.
    apply N.le_antisymm; [exact L1|]. rewrite <- E. apply N.le_min_l.
  - intros H. assert (c = 0 \/ c = 1 \/ c = 2 \/ c = 3 \/ c = 4 \/ c = 5 \/ c = 6 \/ c = 7 \/ c = 8 \/ c = 9)%N as X by lia.
    repeat (destruct X as [->|X]; [reflexivity|]). subst. reflexivity.
Qed.

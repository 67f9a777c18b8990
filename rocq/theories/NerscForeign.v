(** Reading headers with any lines in any order. *)
From Coq Require Import String List Arith NArith ZArith Bool Ascii Lia Permutation.
From Verif Require Import Base LayoutModel CrcModel CrcSpec CrcProofs SwapProofs IoModel IoSpec IoProofs LatIoModel LatIoSpec LatIoOk
  NerscModel NerscHeader NerscHeaderSpec NerscText NerscHeaderOk NerscItems.
Import ListNotations.
Local Open Scope nat_scope.
Local Arguments crc32 : simpl never.

Lemma replace_put {X} i (x : X) l : 1 <= i <= length l -> put_nth (i - 1) x l = Val (replace i x l).
Proof.
  intros Hi. unfold put_nth. destruct (Nat.ltb_spec (i - 1) (length l)); [|lia]. f_equal. unfold replace.
  enough (G : forall (l : list X) a i, a <= i < a + length l ->
    firstn (i - a) l ++ x :: skipn (S (i - a)) l = map (fun p => if fst p =? i then x else snd p) (combine (seq a (length l)) l)) by (apply G; lia).
  assert (K : forall (l : list X) a i, i < a -> map (fun p => if fst p =? i then x else snd p) (combine (seq a (length l)) l) = l).
  { clear. induction l as [|y l IH]; intros a i Hi; [reflexivity|]. cbn [length seq combine map fst snd].
    destruct (Nat.eqb_spec a i); [lia|]. now rewrite IH by lia. }
  clear - K. induction l as [|y l IH]; intros a i Hi; [cbn in Hi; lia|]. cbn [length seq combine map fst snd].
  destruct (Nat.eqb_spec a i) as [->|Hn].
  - replace (i - i) with 0 by lia. cbn [firstn skipn app]. now rewrite K by lia.
  - replace (i - a) with (S (i - S a)) by lia. cbn [firstn app]. f_equal. cbn [skipn]. apply IH. cbn [length] in Hi. lia.
Qed.
Lemma replace_length {X} i (x : X) l : length (replace i x l) = length l.
Proof. unfold replace. rewrite map_length, combine_length, seq_length. lia. Qed.
Lemma replace_nth {X} i (x : X) l j : nth_error (replace i x l) j = if S j =? i then option_map (fun _ => x) (nth_error l j) else nth_error l j.
Proof.
  unfold replace. rewrite nth_error_map.
  enough (G : forall (l : list X) a j, nth_error (combine (seq a (length l)) l) j = option_map (fun y => (a + j, y)) (nth_error l j)).
  { rewrite G. change (1 + j) with (S j). destruct (nth_error l j) as [y|]; cbn [option_map fst snd]; now destruct (S j =? i). }
  clear. induction l as [|y l IH]; intros a j; [now destruct j|]. destruct j as [|j]; cbn [length seq combine nth_error].
  - cbn. now rewrite Nat.add_0_r.
  - rewrite IH. destruct (nth_error l j); cbn; [|reflexivity]. do 2 f_equal. lia.
Qed.

(** ** Lines without a meaning *)
Lemma skip_ws_visible s : visible s -> skip_ws s = s.
Proof.
  intros H. destruct s as [|c s]; [reflexivity|]. destruct (H c eq_refl) as [H1 H2]. cbn [skip_ws].
  replace (is_space c) with false; [reflexivity|]. unfold is_space. lia.
Qed.
Lemma skip_blanks_visible s : nth_error s 0 <> Some 32%N -> skip_blanks s = s.
Proof. intros H. destruct s as [|c s]; [reflexivity|]. cbn in H. cbn [skip_blanks]. destruct (N.eqb_spec c 32) as [->|]; [congruence|reflexivity]. Qed.
Lemma scan_text_no p fmt name s : (forall c, In c p -> is_space c = false) -> (forall c, In c name -> is_space c = false) ->
  ~ starts p name -> scan_text (p ++ fmt) (name ++ 32%N :: s) = None.
Proof.
  revert name. induction p as [|c p IH]; intros name Hp Hn H; [exfalso; apply H; now exists name|].
  cbn [app scan_text]. rewrite Hp by now left. destruct name as [|d name]; cbn [app].
  - destruct (N.eqb_spec 32 c) as [<-|]; [|reflexivity]. specialize (Hp 32%N (or_introl eq_refl)). discriminate.
  - destruct (N.eqb_spec d c) as [->|]; [|reflexivity]. apply IH; [intros; apply Hp; now right|intros; apply Hn; now right|].
    intros (r & ->). apply H. now exists r.
Qed.
Lemma word_name name s : (forall c, In c name -> is_space c = false) -> word_of (name ++ 32%N :: s) = name.
Proof. induction name as [|c name IH]; intros H; [reflexivity|]. cbn [app word_of]. rewrite H by now left. rewrite IH; [reflexivity|intros; apply H; now right]. Qed.
Lemma equal_name name s : ~ In 61%N name -> after_equal (name ++ 32%N :: 61%N :: s) = Some s.
Proof.
  induction name as [|c name IH]; intros H; [reflexivity|]. cbn [app after_equal]. destruct (N.eqb_spec c 61) as [->|]; [exfalso; apply H; now left|].
  apply IH. intros X. apply H. now right.
Qed.

Section Foreign.
  Context {F : Type} (strtod : list N -> option F).
  Notation process := (process_line strtod).
  Notation means := (means strtod).

  Lemma p_other name value h n : meaningless name -> process (entry name value) (h, n) = Val (h, n).
  Proof.
    intros (H0 & H1 & H2 & H3 & H4 & H5). unfold entry. change (txt " = " ++ value) with (32 :: 61 :: 32 :: value)%N.
    assert (S : forall c, In c name -> is_space c = false) by (intros c Hc; destruct (H1 c Hc) as (_ & A & B); unfold is_space; lia).
    assert (E : ~ In 61%N name) by (intros Hc; destruct (H1 61%N Hc) as [X _]; congruence).
    set (tail := (32 :: value)%N).
    assert (N0 : skip_ws (name ++ 32 :: 61 :: tail)%N = (name ++ 32 :: 61 :: tail)%N).
    { destruct name as [|c r]; [congruence|]. cbn [app skip_ws]. now rewrite S by now left. }
    unfold process_line. rewrite N0, word_name by exact S. destruct name as [|c0 r0] eqn:En; [congruence|]. rewrite <- En in *. clear c0 r0 En.
    rewrite equal_name by exact E.
    assert (K : forall k, same name (txt (name_of k)) = false) by (intros k; apply same_neq, H4).
    assert (T : forall p fmt, In p ["PLAQUETTE"; "LINK_TRACE"; "CHECKSUM"; "SEQUENCE_NUMBER"; "DIMENSION_"; "BOUNDARY_"]%string ->
      forallb (fun c => negb (is_space c)) (txt p) = true -> scan_text (txt p ++ fmt) (name ++ 32 :: 61 :: tail)%N = None).
    { intros p fmt Hp Hs. apply scan_text_no; [|exact S|now apply H5]. rewrite forallb_forall in Hs. intros c Hc. apply negb_true_iff, Hs, Hc. }
    rewrite (same_neq name (txt "DATATYPE")), (same_neq name (txt "FLOATING_POINT")) by assumption.
    pose proof (K EnsembleId) as K1. pose proof (K EnsembleLabel) as K2. pose proof (K Creator) as K3. pose proof (K CreatorMachine) as K4.
    pose proof (K CreatorHardware) as K5. pose proof (K CreationDate) as K6. pose proof (K ArchiveDate) as K7. cbn [name_of] in K1, K2, K3, K4, K5, K6, K7.
    rewrite K1, K2, K3, K4, K5, K6, K7. unfold scan_real, scan_field, scan_numbered.
    change (txt "PLAQUETTE = ") with (txt "PLAQUETTE" ++ txt " = ")%list. change (txt "LINK_TRACE = ") with (txt "LINK_TRACE" ++ txt " = ")%list.
    change (txt "CHECKSUM = ") with (txt "CHECKSUM" ++ txt " = ")%list. change (txt "SEQUENCE_NUMBER = ") with (txt "SEQUENCE_NUMBER" ++ txt " = ")%list.
    rewrite (T "PLAQUETTE"%string) by (cbn; tauto || reflexivity). rewrite (T "LINK_TRACE"%string) by (cbn; tauto || reflexivity).
    rewrite (T "CHECKSUM"%string) by (cbn; tauto || reflexivity). rewrite (T "SEQUENCE_NUMBER"%string) by (cbn; tauto || reflexivity).
    pose proof (T "DIMENSION_"%string [] ltac:(cbn; tauto) eq_refl) as T5. rewrite app_nil_r in T5. rewrite T5.
    pose proof (T "BOUNDARY_"%string [] ltac:(cbn; tauto) eq_refl) as T6. rewrite app_nil_r in T6. rewrite T6. reflexivity.
  Qed.

  (** ** One line *)
  Lemma scan_int z : int_value z -> scan_dec (skip_ws (show_int z)) = Val (Some (z, [])).
  Proof. intros H. rewrite <- (app_nil_r (show_int z)). now apply scan_dec_show. Qed.
  Lemma p_bound i s h n : 1 <= i <= 4 -> process (entry (txt "BOUNDARY_" ++ txt (direction i)) s) (h, n)
    = bind (scan_dec (skip_ws s)) (fun o => match o with Some p => bind (bound (Z.of_nat i, fst p) h) (fun h => Val (h, n)) | None => Val (h, n) end).
  Proof.
    intros Hi. assert (E : i = 1 \/ i = 2 \/ i = 3 \/ i = 4) by lia.
    assert (G : forall d, i = d -> process (entry (txt "BOUNDARY_" ++ txt (direction d)) s) (h, n)
      = bind (bind (scan_dec (skip_ws s)) (fun o => Val (option_map (fun p => (Z.of_nat d, fst p)) o)))
          (fun o => bind (match o with Some p => bound p h | None => Val h end) (fun h => Val (h, n)))).
    { intros d <-. destruct E as [->|[->|[->| ->]]]; reflexivity. }
    rewrite (G i eq_refl). destruct (scan_dec (skip_ws s)) as [[[z r]|]| |]; reflexivity.
  Qed.
  Lemma p_size i s h n : 1 <= i <= 4 -> process (entry (txt "DIMENSION_" ++ txt (direction i)) s) (h, n)
    = bind (scan_dec (skip_ws s)) (fun o => match o with Some p => dimension (Z.of_nat i, fst p) (h, n) | None => Val (h, n) end).
  Proof.
    intros Hi. assert (E : i = 1 \/ i = 2 \/ i = 3 \/ i = 4) by lia.
    destruct E as [->|[->|[->| ->]]].
    - exact (p_dimension strtod 0 _ s h n eq_refl).
    - exact (p_dimension strtod 1 _ s h n eq_refl).
    - exact (p_dimension strtod 2 _ s h n eq_refl).
    - exact (p_dimension strtod 3 _ s h n eq_refl).
  Qed.

  Definition wide (h : @header F) : Prop := length (nrow h) = 4 /\ length (boundary h) = 4.
  Lemma item_line x h n : item_ok x -> wide h -> process (line_of x) (h, n) = Val (means x h, n + length (sizes [x])) /\ wide (means x h).
  Proof.
    intros HX (W1 & W2). destruct x as [c|s|s|z| | |f|k s|i z|i z|name value]; cbn [line_of means sizes flat_map app length] in *; rewrite ?Nat.add_0_r.
    - split; [|now split]. change (entry (txt "CHECKSUM") (show_nat 16 c)) with (txt "CHECKSUM = " ++ show_nat 16 c). rewrite (p_checksum strtod), scan_hex_show by (eapply N.lt_trans; [exact HX|reflexivity]). cbn [bind]. now rewrite N.mod_small.
    - destruct HX as [_ HV]. split; [|destruct (strtod s); now split]. change (entry (txt "PLAQUETTE") s) with (txt "PLAQUETTE = " ++ s).
      rewrite p_plaq, skip_ws_visible by exact HV. reflexivity.
    - destruct HX as [_ HV]. split; [|destruct (strtod s); now split]. change (entry (txt "LINK_TRACE") s) with (txt "LINK_TRACE = " ++ s).
      rewrite p_link, skip_ws_visible by exact HV. reflexivity.
    - split; [|now split]. change (entry (txt "SEQUENCE_NUMBER") (show_int z)) with (txt "SEQUENCE_NUMBER = " ++ show_int z).
      rewrite p_sequence, scan_int by exact HX. reflexivity.
    - split; [reflexivity|now split].
    - split; [reflexivity|now split].
    - destruct f; (split; [reflexivity|now split]).
    - destruct HX as [_ HV]. destruct k; (split; [|now split]); cbn [name_of];
        match goal with |- process (entry (txt ?a) s) (h, n) = Val (?f s h, _) => transitivity (Val (f (skip_blanks s) h, n)); [reflexivity|now rewrite skip_blanks_visible] end.
    - destruct HX as [Hi HZ]. rewrite p_size by exact Hi. rewrite scan_int by exact HZ. cbn [bind fst]. unfold dimension.
      replace ((Z.of_nat i <? 1) || (Z.of_nat Nd <? Z.of_nat i))%Z with false by (unfold Nd; lia).
      replace (Z.to_nat (Z.of_nat i - 1)) with (i - 1) by lia. rewrite replace_put by lia. cbn [bind]. split; [now rewrite Nat.add_1_r|].
      split; [cbn [nrow set_nrow]; now rewrite replace_length|exact W2].
    - destruct HX as [Hi HZ]. rewrite p_bound by exact Hi. rewrite scan_int by exact HZ. cbn [bind fst]. unfold bound.
      replace ((Z.of_nat i <? 1) || (Z.of_nat Nd <? Z.of_nat i))%Z with false by (unfold Nd; lia).
      replace (Z.to_nat (Z.of_nat i - 1)) with (i - 1) by lia. rewrite replace_put by lia. cbn [bind]. split; [reflexivity|].
      split; [exact W1|cbn [boundary set_boundary]; now rewrite replace_length].
    - destruct HX as (_ & _ & HM). split; [now apply p_other|now split].
  Qed.

  (** ** All lines *)
  Lemma run_items xs : forall h n, Forall item_ok xs -> wide h ->
    run strtod (map line_of xs) (h, n) = Val (fold_left (fun h x => means x h) xs h, n + length (sizes xs)) /\ wide (fold_left (fun h x => means x h) xs h).
  Proof.
    induction xs as [|x xs IH]; intros h n HX HW; [cbn; rewrite Nat.add_0_r; auto|]. inversion HX as [|? ? H1 H2]; subst.
    cbn [map run fold_left]. destruct (item_line x h n H1 HW) as [-> W]. cbn [bind]. destruct (IH (means x h) (n + length (sizes [x])) H2 W) as [-> W'].
    split; [|exact W']. do 2 f_equal. unfold sizes. cbn [flat_map]. rewrite !app_length. cbn [length]. lia.
  Qed.
  Lemma nrow_means xs : forall h, length (nrow h) = 4 -> nrow (fold_left (fun h x => means x h) xs h)
    = fold_left (fun l p => replace (fst p) (Some (snd p)) l) (sizes xs) (nrow h).
  Proof.
    induction xs as [|x xs IH]; intros h Hh; [reflexivity|]. cbn [fold_left].
    assert (L : length (nrow (means x h)) = 4).
    { destruct x; cbn [means]; try exact Hh; try (now destruct (strtod s)); try (now destruct f); try (now destruct k).
      cbn [nrow set_nrow]. now rewrite replace_length. }
    rewrite IH by exact L. unfold sizes. cbn [flat_map]. rewrite fold_left_app. f_equal.
    destruct x; cbn [means fold_left]; try reflexivity; try (now destruct (strtod s)); try (now destruct f); try (now destruct k).
  Qed.

  Lemma plain_entry name value : plain_text name -> plain_text value -> plain_text (entry name value).
  Proof. intros H1 H2. unfold entry. apply plain_app; [exact H1|]. apply plain_app; [apply plainb_ok; reflexivity|exact H2]. Qed.
  Lemma plain_item x : item_ok x -> plain_text (line_of x).
  Proof.
    intros HX. destruct x as [c|s|s|z| | |f|k s|i z|i z|name value]; cbn [line_of item_ok] in *; apply plain_entry;
      try (apply plainb_ok; reflexivity); try apply plain_nat; try apply plain_int; try (apply plain_one; tauto).
    - destruct f; apply plainb_ok; reflexivity.
    - destruct k; apply plainb_ok; reflexivity.
    - destruct i as [|[|[|[|i]]]]; apply plainb_ok; reflexivity.
    - destruct i as [|[|[|[|i]]]]; apply plainb_ok; reflexivity.
  Qed.
  Lemma not_end x : line_of x <> txt "END_HEADER".
  Proof.
    intros E. assert (X : In 32%N (line_of x)) by (destruct x; cbn [line_of]; unfold entry; apply in_or_app; right; now left).
    rewrite E in X. cbn in X. intuition discriminate.
  Qed.

  (** ** The header *)
  Lemma file_text xs : header_file xs = (txt "BEGIN_HEADER" ++ [10%N]) ++ unlines (map line_of xs) ++ txt "END_HEADER" ++ [10%N].
  Proof. change (header_file xs) with (unlines (txt "BEGIN_HEADER" :: map line_of xs ++ [txt "END_HEADER"])). rewrite unlines_cons, unlines_app. reflexivity. Qed.

  Theorem read_items L xs h0 rest st : Forall item_ok xs -> Forall (fun x => length (line_of x) < 128) xs -> length (boundary h0) = 4 ->
    ready st (header_file xs ++ rest) ->
    let h1 := fold_left (fun h x => means x h) xs (set_mat_size 18 (set_nrow (repeat None 4) h0)) in
    readArchivHeader strtod L h0 st = bind (check_size L h1 (length (sizes xs))) (fun _ => Val (h1, consume (header_file xs) st)).
  Proof.
    intros HX HL HB R h1. rewrite file_text in *. set (b := txt "BEGIN_HEADER" ++ [10%N]) in *.
    set (body := unlines (map line_of xs) ++ txt "END_HEADER" ++ [10%N]) in *. rewrite <- app_assoc in R. unfold readArchivHeader.
    destruct begin_ok as [B1 B2]. rewrite (read_string_ok 128 _ _ st B1 B2 R). cbn [bind].
    replace (same (txt "BEGIN_HEADER") (txt "BEGIN_HEADER")) with true by reflexivity. fold b.
    assert (W0 : wide (set_mat_size 18 (set_nrow (repeat None 4) h0))) by (split; [reflexivity|exact HB]).
    destruct (run_items xs _ 0 HX W0) as [ER _]. cbn [Nat.add] in ER.
    rewrite (read_lines_ok strtod (map line_of xs) _ _ (h1, length (sizes xs)) rest).
    - cbn [bind]. fold body. rewrite consume_app. reflexivity.
    - destruct R as (_ & _ & pre & D & _). unfold consume, add_crc, with_crc, at_get. destruct st as [jn d g p f c]. cbn [s_data] in *. subst d.
      unfold body. rewrite !app_length. pose proof (unlines_length (map line_of xs)). lia.
    - apply Forall_map. rewrite Forall_forall in *. intros x Hx. split; [now apply plain_item, HX|]. split; [now apply HL|apply not_end].
    - exact ER.
    - fold body. now apply consume_ready.
  Qed.

  (** The sizes. *)
  Lemma replace_many ps : forall l j, (forall i, In i (map fst ps) -> 1 <= i) -> NoDup (map fst ps) ->
    nth_error (fold_left (fun l p => replace (fst p) (Some (snd p)) l) ps l) j
    = match find (fun p : nat * Z => fst p =? S j) ps with Some p => option_map (fun _ => Some (snd p)) (nth_error l j) | None => nth_error l j end.
  Proof.
    induction ps as [|[i z] ps IH]; intros l j H1 ND; [reflexivity|]. inversion ND as [|? ? NI ND']; subst. cbn [fold_left find fst snd].
    rewrite IH; [|intros; apply H1; now right|exact ND']. rewrite replace_nth. rewrite (Nat.eqb_sym i (S j)). cbn [fst] in *.
    destruct (Nat.eqb_spec (S j) i) as [<-|Hn]; [|reflexivity].
    destruct (find (fun p : nat * Z => fst p =? S j) ps) as [[i' z']|] eqn:E; [|reflexivity].
    apply find_some in E as [E1 E2]. cbn [fst] in E2. apply Nat.eqb_eq in E2. subst i'. exfalso. apply NI. now apply (in_map fst) in E1.
  Qed.
  Lemma sizes_found xs (Ls : list Z) : length Ls = 4 -> Permutation (sizes xs) (combine [1;2;3;4] Ls) ->
    fold_left (fun l p => replace (fst p) (Some (snd p)) l) (sizes xs) (repeat None 4) = map Some Ls.
  Proof.
    intros HL HP. destruct (four Ls HL) as (a & b & c & d & ->). cbn [combine map] in *.
    assert (PF : Permutation (map fst (sizes xs)) [1;2;3;4]) by (apply (Permutation_map fst) in HP; exact HP).
    assert (ND : NoDup (map fst (sizes xs))) by (eapply Permutation_NoDup; [apply Permutation_sym, PF|repeat constructor; cbn; lia]).
    assert (G : forall j z, In (S j, z) [(1, a); (2, b); (3, c); (4, d)] -> find (fun p : nat * Z => fst p =? S j) (sizes xs) = Some (S j, z)).
    { intros j z Hz. apply (Permutation_in _ (Permutation_sym HP)) in Hz. revert ND Hz. generalize (sizes xs). clear.
      induction l as [|[i y] l IH]; intros ND Hz; [destruct Hz|]. inversion ND as [|? ? NI ND']; subst. cbn [find fst].
      destruct (Nat.eqb_spec i (S j)) as [->|Hn].
      - destruct Hz as [Hz|Hz]; [congruence|]. exfalso. apply NI. now apply (in_map fst) in Hz.
      - apply IH; [exact ND'|]. destruct Hz; [congruence|assumption]. }
    assert (P1 : forall i, In i (map fst (sizes xs)) -> 1 <= i) by (intros i Hi; apply (Permutation_in _ PF) in Hi; cbn in Hi; lia).
    set (res := fold_left _ _ _).
    assert (E : forall j, nth_error res j = nth_error [Some a; Some b; Some c; Some d] j).
    { intros j. unfold res. rewrite replace_many by assumption.
      destruct j as [|[|[|[|j]]]]; [rewrite (G 0 a) by (cbn; tauto); reflexivity|rewrite (G 1 b) by (cbn; tauto); reflexivity
        |rewrite (G 2 c) by (cbn; tauto); reflexivity|rewrite (G 3 d) by (cbn; tauto); reflexivity|].
      replace (nth_error (repeat (@None Z) 4) (S (S (S (S j))))) with (@None (option Z)) by (cbn; now destruct j).
      destruct (find _ _); destruct j; reflexivity. }
    clearbody res. clear - E. assert (L : length res = 4).
    { assert (length res <= 4) by (apply nth_error_None; rewrite E; reflexivity). assert (3 < length res) by (apply nth_error_Some; rewrite E; discriminate). lia. }
    destruct (four _ L) as (w & x & y & z & ->). pose proof (E 0). pose proof (E 1). pose proof (E 2). pose proof (E 3). cbn in *. congruence.
  Qed.
  (** A direction that is missing. *)
  Lemma replace_other ps j : forall l, (forall p : nat * Z, In p ps -> fst p <> S j) ->
    nth_error (fold_left (fun l p => replace (fst p) (Some (snd p)) l) ps l) j = nth_error l j.
  Proof.
    induction ps as [|[i z] ps IH]; intros l H; [reflexivity|]. cbn [fold_left]. rewrite IH by (intros; apply H; now right).
    rewrite replace_nth. destruct (Nat.eqb_spec (S j) (fst (i, z))) as [E|]; [|reflexivity]. exfalso. apply (H (i, z)); [now left|]. now symmetry.
  Qed.
  Lemma mapM_none (l : list (option Z)) : In None l -> (forall x, In x l -> exists r, of_option x = r) -> mapM of_option l = Undef.
  Proof.
    intros H _. induction l as [|x l IH]; [destruct H|]. cbn [mapM]. destruct x as [x|]; [|reflexivity]. cbn [of_option bind].
    destruct H as [H|H]; [discriminate|]. now rewrite IH.
  Qed.
End Foreign.

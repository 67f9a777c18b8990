(** Reading back the header of a gauge archive. *)
From Coq Require Import String List Arith NArith ZArith Bool Ascii Lia.
From Verif Require Import Base LayoutModel CrcModel CrcSpec CrcProofs SwapProofs IoModel IoSpec IoProofs LatIoModel LatIoSpec LatIoOk
  NerscModel NerscHeader NerscHeaderSpec NerscText.
Import ListNotations.
Local Open Scope nat_scope.
Local Arguments crc32 : simpl never.

Ltac len := rewrite ?app_length;
  repeat match goal with |- context [length (txt ?a)] => let n := eval vm_compute in (length (txt a)) in change (length (txt a)) with n end; lia.

Section Header.
  Context {F : Type} (show : F -> list N) (strtod : list N -> option F).
  Notation process := (process_line strtod).

  Definition setw (o : option F) (h : @header F) := match o with Some x => set_w_plaq x h | None => h end.
  Definition setl (o : option F) (h : @header F) := match o with Some x => set_link x h | None => h end.

  (** ** One line at a time *)
  Lemma p_checksum s h n : process (txt "CHECKSUM = " ++ s) (h, n)
    = bind (scan_hex (skip_ws s)) (fun o => Val (match o with Some x => set_checksum (x mod 2 ^ 32)%N h | None => h end, n)).
  Proof. reflexivity. Qed.
  Lemma p_link s h n : process (txt "LINK_TRACE = " ++ s) (h, n) = Val (setl (strtod (skip_ws s)) h, n).
  Proof. reflexivity. Qed.
  Lemma p_plaq s h n : process (txt "PLAQUETTE = " ++ s) (h, n) = Val (setw (strtod (skip_ws s)) h, n).
  Proof. reflexivity. Qed.
  Lemma p_datatype h n : process (txt "DATATYPE = 4D_SU3_GAUGE") (h, n) = Val (set_mat_size 12 h, n).
  Proof. reflexivity. Qed.
  Lemma p_version h n : process (txt "HDR_VERSION = 1.0") (h, n) = Val (h, n).
  Proof. reflexivity. Qed.
  Lemma p_storage h n : process (txt "STORAGE_FORMAT = 1.0") (h, n) = Val (h, n).
  Proof. reflexivity. Qed.
  Definition dims := [txt "DIMENSION_1 = "; txt "DIMENSION_2 = "; txt "DIMENSION_3 = "; txt "DIMENSION_4 = "].
  Lemma p_dimension i name s h n : nth_error dims i = Some name -> process (name ++ s) (h, n)
    = bind (scan_dec (skip_ws s)) (fun o => match o with Some p => dimension (Z.of_nat (S i), fst p) (h, n) | None => Val (h, n) end).
  Proof.
    intros H. destruct i as [|[|[|[|i]]]]; [| | | |destruct i; discriminate]; injection H as <-;
      match goal with |- _ = bind _ (fun o => match o with Some p => dimension (?d, _) _ | None => _ end) =>
        transitivity (bind (bind (scan_dec (skip_ws s)) (fun o => Val (option_map (fun p => (d, fst p)) o)))
          (fun o => bind (match o with Some p => dimension p (h, n) | None => Val (h, n) end) (fun '(h, cnt) => Val (h, cnt)))); [reflexivity|]
      end; destruct (scan_dec (skip_ws s)) as [[[z r]|]| |]; try reflexivity; cbn [bind option_map fst];
       match goal with |- context [dimension ?p ?q] => destruct (dimension p q) as [[? ?]| |]; reflexivity end.
  Qed.
  Definition bounds := [txt "BOUNDARY_1 = "; txt "BOUNDARY_2 = "; txt "BOUNDARY_3 = "; txt "BOUNDARY_4 = "].
  Definition periodic (x : Z) : list N := if (x =? 1)%Z then txt "PERIODIC" else txt "ANTIPERIODIC".
  Lemma p_boundary name x h n : In name bounds -> process (name ++ periodic x) (h, n) = Val (h, n).
  Proof. intros H. unfold periodic. destruct (x =? 1)%Z; destruct H as [<-|[<-|[<-|[<-|[]]]]]; reflexivity. Qed.
  Lemma p_id s h n : process (txt "ENSEMBLE_ID = " ++ s) (h, n) = Val (set_ensemble_id (skip_blanks s) h, n).
  Proof. reflexivity. Qed.
  Lemma p_label s h n : process (txt "ENSEMBLE_LABEL = " ++ s) (h, n) = Val (set_ensemble_label (skip_blanks s) h, n).
  Proof. reflexivity. Qed.
  Lemma p_sequence s h n : process (txt "SEQUENCE_NUMBER = " ++ s) (h, n)
    = bind (scan_dec (skip_ws s)) (fun o => Val (match o with Some p => set_sequence_number (fst p) h | None => h end, n)).
  Proof.
    transitivity (bind (bind (scan_dec (skip_ws s)) (fun o => Val (option_map fst o)))
      (fun o => Val (match o with Some x => set_sequence_number x h | None => h end, n))); [reflexivity|].
    destruct (scan_dec (skip_ws s)) as [[[z r]|]| |]; reflexivity.
  Qed.
  Lemma p_creator s h n : process (txt "CREATOR = " ++ s) (h, n) = Val (set_creator (skip_blanks s) h, n).
  Proof. reflexivity. Qed.
  Lemma p_hardware s h n : process (txt "CREATOR_HARDWARE = " ++ s) (h, n) = Val (set_creator_hardware (skip_blanks s) h, n).
  Proof. reflexivity. Qed.
  Lemma p_created s h n : process (txt "CREATION_DATE = " ++ s) (h, n) = Val (set_creation_date (skip_blanks s) h, n).
  Proof. reflexivity. Qed.
  Lemma p_archived s h n : process (txt "ARCHIVE_DATE = " ++ s) (h, n) = Val (set_archive_date (skip_blanks s) h, n).
  Proof. reflexivity. Qed.
  Lemma p_float h n : process (txt "FLOATING_POINT = IEEE32BIG") (h, n) = Val (set_float_size 4 h, n).
  Proof. reflexivity. Qed.

  (** ** The lines of a header *)
  Definition dim_line (p : list N * nat) : list N := fst p ++ show_int (Z.of_nat (snd p)).
  Definition bound_line (p : list N * Z) : list N := fst p ++ periodic (snd p).
  Definition lines1 (h : @header F) : list (list N) :=
    [txt "CHECKSUM = " ++ show_nat 16 (checksum h); txt "LINK_TRACE = " ++ show (link h); txt "PLAQUETTE = " ++ show (w_plaq h);
     txt "DATATYPE = 4D_SU3_GAUGE"; txt "HDR_VERSION = 1.0"; txt "STORAGE_FORMAT = 1.0"].
  Definition lines2 (h : @header F) : list (list N) :=
    [txt "ENSEMBLE_ID = " ++ ensemble_id h; txt "ENSEMBLE_LABEL = " ++ ensemble_label h;
     txt "SEQUENCE_NUMBER = " ++ show_int (sequence_number h); txt "CREATOR = " ++ creator h;
     txt "CREATOR_HARDWARE = " ++ creator_hardware h; txt "CREATION_DATE = " ++ creation_date h;
     txt "ARCHIVE_DATE = " ++ archive_date h; txt "FLOATING_POINT = IEEE32BIG"].
  Definition lines (L : list nat) (h : @header F) : list (list N) :=
    lines1 h ++ map dim_line (combine dims L) ++ map bound_line (combine bounds (boundary h)) ++ lines2 h.

  Lemma four {X} (l : list X) : length l = 4 -> exists a b c d, l = [a; b; c; d].
  Proof. intros H. do 4 (destruct l as [|? l]; [discriminate|]). destruct l; [|discriminate]. eauto. Qed.

  Lemma boundary_line_ok i x : i < 4 -> x = 1%Z \/ x = (-1)%Z ->
    exists name, nth_error bounds i = Some name /\ boundary_line (i, x) = Val (bound_line (name, x) ++ [10%N]).
  Proof.
    intros Hi Hx. destruct i as [|[|[|[|i]]]]; [| | | |lia]; eexists; (split; [reflexivity|]); destruct Hx as [-> | ->]; reflexivity.
  Qed.

  Lemma header_lines L h : length L = 4 -> length (boundary h) = 4 -> Forall (fun x => x = 1%Z \/ x = (-1)%Z) (boundary h) ->
    header_text show L h = Val ((txt "BEGIN_HEADER" ++ [10%N]) ++ unlines (lines L h) ++ txt "END_HEADER" ++ [10%N]).
  Proof.
    intros HL HB HX. destruct (four _ HL) as (l0 & l1 & l2 & l3 & ->). destruct (four _ HB) as (b0 & b1 & b2 & b3 & EB).
    unfold header_text, lines. rewrite EB in *. inversion HX as [|? ? X0 Y0]; subst. inversion Y0 as [|? ? X1 Y1]; subst.
    inversion Y1 as [|? ? X2 Y2]; subst. inversion Y2 as [|? ? X3 _]; subst.
    destruct (boundary_line_ok 0 b0 ltac:(lia) X0) as (n0 & N0 & E0). destruct (boundary_line_ok 1 b1 ltac:(lia) X1) as (n1 & N1 & E1).
    destruct (boundary_line_ok 2 b2 ltac:(lia) X2) as (n2 & N2 & E2). destruct (boundary_line_ok 3 b3 ltac:(lia) X3) as (n3 & N3 & E3).
    unfold Nd. cbn [List.seq mapM nth_error]. rewrite E0, E1, E2, E3. cbn [bind].
    injection N0 as <-. injection N1 as <-. injection N2 as <-. injection N3 as <-. f_equal.
    rewrite !unlines_app. unfold unlines, lines1, lines2. cbn [bounds dims combine map concat flat_map List.seq].
    change (Nat.sub 1 1) with 0. change (Nat.sub 2 1) with 1. change (Nat.sub 3 1) with 2. change (Nat.sub 4 1) with 3. cbn [nth].
    unfold dim_line, bound_line. cbn [fst snd]. rewrite !app_nil_r, <- !app_assoc. reflexivity.
  Qed.

  (** ** What the lines do *)
  Definition after_dims (L : list nat) (h : @header F) : header := set_nrow (map (fun l => Some (Z.of_nat l)) L) h.
  Lemma run_dims L h : length L = 4 -> Forall (fun l => int_value (Z.of_nat l)) L -> length (nrow h) = 4 ->
    run strtod (map dim_line (combine dims L)) (h, 0) = Val (after_dims L h, 4).
  Proof.
    intros HL HI HN. destruct (four _ HL) as (l0 & l1 & l2 & l3 & ->). destruct (four _ HN) as (n0 & n1 & n2 & n3 & EN).
    inversion HI as [|? ? I0 Y0]; subst. inversion Y0 as [|? ? I1 Y1]; subst. inversion Y1 as [|? ? I2 Y2]; subst. inversion Y2 as [|? ? I3 _]; subst.
    cbn [combine dims map run]. unfold dim_line. cbn [fst snd].
    assert (S : forall l, int_value (Z.of_nat l) -> scan_dec (skip_ws (show_int (Z.of_nat l))) = Val (Some (Z.of_nat l, []))).
    { intros l Hl. rewrite <- (app_nil_r (show_int _)). apply scan_dec_show; [exact Hl|discriminate]. }
    rewrite (p_dimension 0) by reflexivity. rewrite S by exact I0. cbn [bind fst]. unfold dimension at 1. rewrite EN.
    change ((Z.of_nat 1 <? 1) || (Z.of_nat Nd <? Z.of_nat 1))%Z with false. cbn [put_nth bind].
    change (Z.to_nat (Z.of_nat 1 - 1)) with 0. unfold put_nth at 1. cbn [length Nat.ltb Nat.leb firstn skipn app bind].
    rewrite (p_dimension 1) by reflexivity. rewrite S by exact I1. cbn [bind fst]. unfold dimension at 1. cbn [nrow set_nrow].
    change ((Z.of_nat 2 <? 1) || (Z.of_nat Nd <? Z.of_nat 2))%Z with false.
    change (Z.to_nat (Z.of_nat 2 - 1)) with 1. unfold put_nth at 1. cbn [length Nat.ltb Nat.leb firstn skipn app bind].
    rewrite (p_dimension 2) by reflexivity. rewrite S by exact I2. cbn [bind fst]. unfold dimension at 1. cbn [nrow set_nrow].
    change ((Z.of_nat 3 <? 1) || (Z.of_nat Nd <? Z.of_nat 3))%Z with false.
    change (Z.to_nat (Z.of_nat 3 - 1)) with 2. unfold put_nth at 1. cbn [length Nat.ltb Nat.leb firstn skipn app bind].
    rewrite (p_dimension 3) by reflexivity. rewrite S by exact I3. cbn [bind fst]. unfold dimension at 1. cbn [nrow set_nrow].
    change ((Z.of_nat 4 <? 1) || (Z.of_nat Nd <? Z.of_nat 4))%Z with false.
    change (Z.to_nat (Z.of_nat 4 - 1)) with 3. unfold put_nth at 1. cbn [length Nat.ltb Nat.leb firstn skipn app bind].
    reflexivity.
  Qed.
  Lemma run_bounds bs n h : length bs = 4 -> run strtod (map bound_line (combine bounds bs)) (h, n) = Val (h, n).
  Proof.
    intros HB. destruct (four _ HB) as (b0 & b1 & b2 & b3 & ->). cbn [bounds combine map run]. unfold bound_line. cbn [fst snd].
    rewrite p_boundary by (cbn; tauto). cbn [bind]. rewrite p_boundary by (cbn; tauto). cbn [bind].
    rewrite p_boundary by (cbn; tauto). cbn [bind]. rewrite p_boundary by (cbn; tauto). reflexivity.
  Qed.
  Definition after1 (h h0 : @header F) : header :=
    set_mat_size 12 (setw (strtod (skip_ws (show (w_plaq h)))) (setl (strtod (skip_ws (show (link h)))) (set_checksum (checksum h) h0))).
  Lemma run_lines1 h h0 n : (checksum h < 2 ^ 32)%N -> run strtod (lines1 h) (h0, n) = Val (after1 h h0, n).
  Proof.
    intros H. unfold lines1. cbn [run]. rewrite p_checksum, scan_hex_show by (eapply N.lt_trans; [exact H|reflexivity]). cbn [bind].
    rewrite N.mod_small by exact H. rewrite p_link. cbn [bind]. rewrite p_plaq. cbn [bind]. rewrite p_datatype. cbn [bind].
    rewrite p_version. cbn [bind]. rewrite p_storage. reflexivity.
  Qed.
  Definition after2 (h h0 : @header F) : header :=
    set_float_size 4 (set_archive_date (skip_blanks (archive_date h)) (set_creation_date (skip_blanks (creation_date h))
      (set_creator_hardware (skip_blanks (creator_hardware h)) (set_creator (skip_blanks (creator h))
      (set_sequence_number (sequence_number h) (set_ensemble_label (skip_blanks (ensemble_label h))
      (set_ensemble_id (skip_blanks (ensemble_id h)) h0))))))).
  Lemma run_lines2 h h0 n : int_value (sequence_number h) -> run strtod (lines2 h) (h0, n) = Val (after2 h h0, n).
  Proof.
    intros H. unfold lines2. cbn [run]. rewrite p_id. cbn [bind]. rewrite p_label. cbn [bind]. rewrite p_sequence.
    rewrite <- (app_nil_r (show_int _)), scan_dec_show by (exact H || discriminate). cbn [bind fst].
    rewrite p_creator. cbn [bind]. rewrite p_hardware. cbn [bind]. rewrite p_created. cbn [bind]. rewrite p_archived. cbn [bind].
    rewrite p_float. reflexivity.
  Qed.
  Definition result (L : list nat) (h h0 : @header F) : header := after2 h (after_dims L (after1 h h0)).
  Lemma setw_nrow o (h : @header F) : nrow (setw o h) = nrow h. Proof. now destruct o. Qed.
  Lemma setl_nrow o (h : @header F) : nrow (setl o h) = nrow h. Proof. now destruct o. Qed.
  Lemma run_all L h h0 : header_ok L h -> length (nrow h0) = 4 -> run strtod (lines L h) (h0, 0) = Val (result L h h0, 4).
  Proof.
    intros (H1 & H2 & H3 & H4 & H5 & H6 & H7) HN. unfold lines. rewrite run_app, run_lines1 by exact H5. cbn [bind]. rewrite run_app.
    rewrite run_dims; [|exact H1|exact H2|unfold after1; cbn [nrow set_mat_size]; now rewrite setw_nrow, setl_nrow].
    cbn [bind]. rewrite run_app, run_bounds by exact H3. cbn [bind]. now apply run_lines2.
  Qed.

  (** ** Lines are plain text *)
  Lemma plain_app a b : plain_text a -> plain_text b -> plain_text (a ++ b).
  Proof using. clear show strtod F.
    intros (A1 & A2 & A3) (B1 & B2 & B3). split; [apply Forall_app; auto|]. split; rewrite in_app_iff; tauto.
  Qed.
  Lemma plain_one s : one_line s -> plain_text s.
  Proof. intros (A & B & C). split; [exact A|]. auto. Qed.
  Lemma plain_chars s : Forall (fun c => is_digit c \/ c = 45%N) s -> plain_text s.
  Proof using. clear show strtod F.
    intros H. split; [|split].
    - eapply Forall_impl; [|exact H]. intros c Hc. cbv beta in Hc. unfold is_digit in Hc. lia.
    - intros X. rewrite Forall_forall in H. specialize (H _ X). unfold is_digit in H. lia.
    - intros X. rewrite Forall_forall in H. specialize (H _ X). unfold is_digit in H. lia.
  Qed.
  Lemma plain_nat n : plain_text (show_nat 16 n).
  Proof using. clear show strtod F.
    apply plain_chars. destruct (show_nat_ok 16 n [] ltac:(lia) ltac:(discriminate)) as [X _]. eapply Forall_impl; [|exact X]. tauto.
  Qed.
  Lemma plain_int z : plain_text (show_int z).
  Proof using. clear show strtod F. apply plain_chars, show_int_chars. Qed.
  Definition plainb (s : list N) : bool := forallb (fun c => ((c <? 256) && negb (c =? 10) && negb (c =? 0))%N) s.
  Lemma plainb_ok s : plainb s = true -> plain_text s.
  Proof.
    unfold plainb. rewrite forallb_forall. intros H. split; [|split].
    - apply Forall_forall. intros c Hc. specialize (H c Hc). apply andb_prop in H as [H _]. apply andb_prop in H as [H _]. now apply N.ltb_lt.
    - intros X. specialize (H _ X). discriminate.
    - intros X. specialize (H _ X). discriminate.
  Qed.
  Lemma plain_periodic x : plain_text (periodic x).
  Proof using. clear show strtod F. unfold periodic. destruct (x =? 1)%Z; apply plainb_ok; reflexivity. Qed.
  Lemma plain_name name s : plainb name = true -> plain_text s -> plain_text (name ++ s).
  Proof using. clear show strtod F. intros H. apply plain_app. now apply plainb_ok. Qed.

  Lemma plain_lines L h : prints_well show -> header_ok L h -> Forall plain_text (lines L h).
  Proof.
    intros HS (H1 & H2 & H3 & H4 & H5 & H6 & H7). destruct (four _ H1) as (l0 & l1 & l2 & l3 & ->). destruct (four _ H3) as (b0 & b1 & b2 & b3 & EB).
    unfold texts in H7. inversion H7 as [|? ? T0 Y0]; subst. inversion Y0 as [|? ? T1 Y1]; subst. inversion Y1 as [|? ? T2 Y2]; subst.
    inversion Y2 as [|? ? T3 Y3]; subst. inversion Y3 as [|? ? T4 Y4]; subst. inversion Y4 as [|? ? T5 _]; subst. cbn [snd] in *.
    destruct (HS (link h)) as (S1 & _). destruct (HS (w_plaq h)) as (S2 & _).
    unfold lines, lines1, lines2. rewrite EB. cbn [dims bounds combine map app]. unfold dim_line, bound_line. cbn [fst snd].
    repeat (apply Forall_cons; [first [apply plain_name; [reflexivity|first [apply plain_nat|apply plain_int|apply plain_periodic|apply plain_one; assumption]]
                                      |apply plainb_ok; reflexivity]|]).
    apply Forall_nil.
  Qed.

  (** ** All lines are harmless *)
  Definition P (hc : @header F * nat) : Prop := length (nrow (fst hc)) = 4.
  Notation good := (good_line strtod P).
  Lemma good_short l : plain_text l -> length l < 128 -> l <> txt "END_HEADER" ->
    (forall h n, length (nrow h) = 4 -> exists hc', process l (h, n) = Val hc' /\ P hc') -> good l.
  Proof.
    intros H1 H2 H3 H4. split; [exact H1|]. rewrite firstn_all2 by lia. split; [exact H3|]. intros [h n] HP. now apply H4.
  Qed.
  Lemma good_text name (f : list N -> @header F -> header) s : length name < 100 -> plain_text (name ++ s) ->
    (forall s', name ++ s' <> txt "END_HEADER") ->
    (forall s' h n, process (name ++ s') (h, n) = Val (f (skip_blanks s') h, n)) -> (forall x h, nrow (f x h) = nrow h) -> good (name ++ s).
  Proof.
    intros HL H1 H2 H3 H4. split; [exact H1|]. rewrite firstn_app, firstn_all2 by lia. split; [apply H2|]. intros [h n] HP.
    rewrite H3. eexists. split; [reflexivity|]. unfold P in *. cbn [fst] in *. now rewrite H4.
  Qed.
  Lemma put_nth_length {X} i (x : X) l : i < length l -> exists l', put_nth i x l = Val l' /\ length l' = length l.
  Proof.
    intros H. unfold put_nth. destruct (Nat.ltb_spec i (length l)); [|lia]. eexists. split; [reflexivity|].
    rewrite app_length, firstn_length. cbn [length]. rewrite skipn_length. lia.
  Qed.
  Lemma good_dim i name l : nth_error dims i = Some name -> int_value (Z.of_nat l) -> good (dim_line (name, l)).
  Proof.
    intros Hn Hl. unfold dim_line. cbn [fst snd]. pose proof (show_int_length _ Hl) as SL.
    assert (Hi : i < 4) by (assert (nth_error dims i <> None) as X by congruence; now apply nth_error_Some in X).
    apply good_short.
    - apply plain_name; [|apply plain_int]. destruct i as [|[|[|[|i]]]]; [| | | |lia]; injection Hn as <-; reflexivity.
    - rewrite app_length. enough (length name = 14) by lia. destruct i as [|[|[|[|i]]]]; [| | | |lia]; injection Hn as <-; reflexivity.
    - destruct i as [|[|[|[|i]]]]; [| | | |lia]; injection Hn as <-; discriminate.
    - intros h n HP. rewrite (p_dimension i) by exact Hn. rewrite <- (app_nil_r (show_int _)), scan_dec_show by (exact Hl || discriminate).
      cbn [bind fst]. unfold dimension. replace ((Z.of_nat (S i) <? 1) || (Z.of_nat Nd <? Z.of_nat (S i)))%Z with false by (unfold Nd; lia).
      destruct (put_nth_length (Z.to_nat (Z.of_nat (S i) - 1)) (Some (Z.of_nat l)) (nrow h)) as (l' & -> & El); [lia|].
      cbn [bind]. eexists. split; [reflexivity|]. unfold P. cbn [fst nrow set_nrow]. lia.
  Qed.
  Lemma good_bound name x : In name bounds -> good (bound_line (name, x)).
  Proof.
    intros Hn. unfold bound_line. cbn [fst snd].
    apply good_short.
    - apply plain_name; [|apply plain_periodic]. destruct Hn as [<-|[<-|[<-|[<-|[]]]]]; reflexivity.
    - unfold periodic. destruct (x =? 1)%Z; destruct Hn as [<-|[<-|[<-|[<-|[]]]]]; cbn; lia.
    - destruct Hn as [<-|[<-|[<-|[<-|[]]]]]; discriminate.
    - intros h n HP. rewrite p_boundary by exact Hn. eexists. split; [reflexivity|exact HP].
  Qed.
  Lemma good_lines1 h : prints_well show -> (checksum h < 2 ^ 32)%N -> Forall good (lines1 h).
  Proof.
    intros HS HC. destruct (HS (link h)) as (S1 & L1 & _). destruct (HS (w_plaq h)) as (S2 & L2 & _). unfold lines1.
    apply Forall_cons; [|apply Forall_cons; [|apply Forall_cons; [|apply Forall_cons; [|apply Forall_cons; [|apply Forall_cons; [|apply Forall_nil]]]]]].
    - apply good_short; [apply plain_name; [reflexivity|apply plain_nat]| |discriminate|].
      + rewrite app_length. assert (length (show_nat 16 (checksum h)) <= 8) by (apply show_nat_length; [reflexivity|exact HC|lia]). len.
      + intros h0 n HP. rewrite p_checksum, scan_hex_show by (eapply N.lt_trans; [exact HC|reflexivity]). eexists. split; [reflexivity|exact HP].
    - apply good_short; [apply plain_name; [reflexivity|now apply plain_one]|len|discriminate|].
      intros h0 n HP. rewrite p_link. eexists. split; [reflexivity|]. unfold P. cbn [fst]. now rewrite setl_nrow.
    - apply good_short; [apply plain_name; [reflexivity|now apply plain_one]|len|discriminate|].
      intros h0 n HP. rewrite p_plaq. eexists. split; [reflexivity|]. unfold P. cbn [fst]. now rewrite setw_nrow.
    - apply good_short; [apply plainb_ok; reflexivity|cbn; lia|discriminate|].
      intros h0 n HP. rewrite p_datatype. eexists. split; [reflexivity|exact HP].
    - apply good_short; [apply plainb_ok; reflexivity|cbn; lia|discriminate|].
      intros h0 n HP. rewrite p_version. eexists. split; [reflexivity|exact HP].
    - apply good_short; [apply plainb_ok; reflexivity|cbn; lia|discriminate|].
      intros h0 n HP. rewrite p_storage. eexists. split; [reflexivity|exact HP].
  Qed.
  Lemma good_lines2 h : int_value (sequence_number h) -> Forall (fun p => one_line (snd p)) (texts h) -> Forall good (lines2 h).
  Proof.
    intros HI H7. unfold texts in H7. inversion H7 as [|? ? T0 Y0]; subst. inversion Y0 as [|? ? T1 Y1]; subst. inversion Y1 as [|? ? T2 Y2]; subst.
    inversion Y2 as [|? ? T3 Y3]; subst. inversion Y3 as [|? ? T4 Y4]; subst. inversion Y4 as [|? ? T5 _]; subst. cbn [snd] in *. clear Y0 Y1 Y2 Y3 Y4 H7.
    unfold lines2.
    apply Forall_cons; [|apply Forall_cons; [|apply Forall_cons; [|apply Forall_cons; [|apply Forall_cons; [|apply Forall_cons; [|apply Forall_cons; [|apply Forall_cons; [|apply Forall_nil]]]]]]]].
    - apply (good_text _ set_ensemble_id); [cbn; lia|apply plain_name; [reflexivity|now apply plain_one]|discriminate|reflexivity|reflexivity].
    - apply (good_text _ set_ensemble_label); [cbn; lia|apply plain_name; [reflexivity|now apply plain_one]|discriminate|reflexivity|reflexivity].
    - pose proof (show_int_length _ HI). apply good_short; [apply plain_name; [reflexivity|apply plain_int]|len|discriminate|].
      intros h0 n HP. rewrite p_sequence, <- (app_nil_r (show_int _)), scan_dec_show by (exact HI || discriminate).
      eexists. split; [reflexivity|exact HP].
    - apply (good_text _ set_creator); [cbn; lia|apply plain_name; [reflexivity|now apply plain_one]|discriminate|reflexivity|reflexivity].
    - apply (good_text _ set_creator_hardware); [cbn; lia|apply plain_name; [reflexivity|now apply plain_one]|discriminate|reflexivity|reflexivity].
    - apply (good_text _ set_creation_date); [cbn; lia|apply plain_name; [reflexivity|now apply plain_one]|discriminate|reflexivity|reflexivity].
    - apply (good_text _ set_archive_date); [cbn; lia|apply plain_name; [reflexivity|now apply plain_one]|discriminate|reflexivity|reflexivity].
    - apply good_short; [apply plainb_ok; reflexivity|cbn; lia|discriminate|].
      intros h0 n HP. rewrite p_float. eexists. split; [reflexivity|exact HP].
  Qed.
  Lemma good_lines L h : prints_well show -> header_ok L h -> Forall good (lines L h).
  Proof.
    intros HS (H1 & H2 & H3 & H4 & H5 & H6 & H7). unfold lines. apply Forall_app. split; [now apply good_lines1|]. apply Forall_app. split.
    - destruct (four _ H1) as (l0 & l1 & l2 & l3 & ->). inversion H2 as [|? ? I0 Y0]; subst. inversion Y0 as [|? ? I1 Y1]; subst.
      inversion Y1 as [|? ? I2 Y2]; subst. inversion Y2 as [|? ? I3 _]; subst. cbn [combine dims map].
      apply Forall_cons; [now apply (good_dim 0)|]. apply Forall_cons; [now apply (good_dim 1)|]. apply Forall_cons; [now apply (good_dim 2)|].
      apply Forall_cons; [now apply (good_dim 3)|]. apply Forall_nil.
    - apply Forall_app. split; [|now apply good_lines2]. destruct (four _ H3) as (b0 & b1 & b2 & b3 & ->). cbn [combine bounds map].
      do 4 (apply Forall_cons; [apply good_bound; cbn; tauto|]). apply Forall_nil.
  Qed.

  (** ** Lengths *)
  Lemma Forall_good_short ls : Forall good ls -> Forall (fun l => length l < 128) ls ->
    Forall (fun l => plain_text l /\ length l < 128 /\ l <> txt "END_HEADER") ls.
  Proof.
    intros H1 H2. rewrite Forall_forall in *. intros l Hl. specialize (H1 l Hl). specialize (H2 l Hl). destruct H1 as (A & B & _).
    rewrite firstn_all2 in B by lia. auto.
  Qed.
  Lemma short_lines L h : prints_well show -> header_ok L h -> lines_fit h -> Forall (fun l => length l < 128) (lines L h).
  Proof.
    intros HS (H1 & H2 & H3 & H4 & H5 & H6 & H7) HF. destruct (HS (link h)) as (_ & L1 & _). destruct (HS (w_plaq h)) as (_ & L2 & _).
    assert (LC : length (show_nat 16 (checksum h)) <= 8) by (apply show_nat_length; [reflexivity|exact H5|lia]).
    pose proof (show_int_length _ H6) as LS.
    unfold lines_fit, texts in HF. inversion HF as [|? ? T0 Y0]; subst. inversion Y0 as [|? ? T1 Y1]; subst. inversion Y1 as [|? ? T2 Y2]; subst.
    inversion Y2 as [|? ? T3 Y3]; subst. inversion Y3 as [|? ? T4 Y4]; subst. inversion Y4 as [|? ? T5 _]; subst.
    cbn [fst snd] in *. unfold line_length in *. clear Y0 Y1 Y2 Y3 Y4 HF.
    assert (G : forall name s k, length (txt name) = k -> length (txt name ++ s) = k + length s) by (intros; rewrite app_length; lia).
    unfold lines. apply Forall_app. split; [|apply Forall_app; split; [|apply Forall_app; split]].
    - unfold lines1. repeat apply Forall_cons; try apply Forall_nil; len.
    - destruct (four _ H1) as (l0 & l1 & l2 & l3 & ->). inversion H2 as [|? ? I0 Y0]; subst. inversion Y0 as [|? ? I1 Y1]; subst.
      inversion Y1 as [|? ? I2 Y2]; subst. inversion Y2 as [|? ? I3 _]; subst. cbn [combine dims map]. unfold dim_line. cbn [fst snd].
      pose proof (show_int_length _ I0). pose proof (show_int_length _ I1). pose proof (show_int_length _ I2). pose proof (show_int_length _ I3).
      repeat apply Forall_cons; try apply Forall_nil; len.
    - destruct (four _ H3) as (b0 & b1 & b2 & b3 & ->). cbn [combine bounds map]. unfold bound_line, periodic. cbn [fst snd].
      repeat apply Forall_cons; try apply Forall_nil; match goal with |- context [if ?b then _ else _] => destruct b end; cbn; lia.
    - cbn in T0, T1, T2, T3, T4, T5. unfold lines2. repeat apply Forall_cons; try apply Forall_nil; len.
  Qed.
  Lemma long_lines L h : ~ lines_fit h -> Exists (fun l => 128 <= length l) (lines L h).
  Proof.
    intros H.
    destruct (Exists_dec (fun l => 128 <= length l) (lines L h) (fun l => le_dec 128 (length l))) as [E|E]; [exact E|]. exfalso. apply H.
    rewrite <- Forall_Exists_neg in E. unfold lines in E. apply Forall_app in E as [_ E]. apply Forall_app in E as [_ E]. apply Forall_app in E as [_ E].
    unfold lines2 in E. rewrite Forall_forall in E. unfold lines_fit, texts, line_length. rewrite Forall_forall. intros p Hp.
    assert (G : forall s, In s [txt "ENSEMBLE_ID = " ++ ensemble_id h; txt "ENSEMBLE_LABEL = " ++ ensemble_label h; txt "CREATOR = " ++ creator h;
      txt "CREATOR_HARDWARE = " ++ creator_hardware h; txt "CREATION_DATE = " ++ creation_date h; txt "ARCHIVE_DATE = " ++ archive_date h] -> length s < 128).
    { intros s Hs. apply Nat.nle_gt. apply E. cbn [In] in Hs |- *. tauto. }
    cbn [In] in Hp. destruct Hp as [<-|[<-|[<-|[<-|[<-|[<-|[]]]]]]]; cbn [fst snd].
    - specialize (G _ (or_introl eq_refl)). rewrite app_length in G. exact G.
    - specialize (G _ (or_intror (or_introl eq_refl))). rewrite app_length in G. exact G.
    - specialize (G _ (or_intror (or_intror (or_introl eq_refl)))). rewrite app_length in G. exact G.
    - specialize (G _ (or_intror (or_intror (or_intror (or_introl eq_refl))))). rewrite app_length in G. exact G.
    - specialize (G _ (or_intror (or_intror (or_intror (or_intror (or_introl eq_refl)))))). rewrite app_length in G. exact G.
    - specialize (G _ (or_intror (or_intror (or_intror (or_intror (or_intror (or_introl eq_refl))))))). rewrite app_length in G. exact G.
  Qed.

  (** ** The header *)
  Definition text_of (L : list nat) (h : @header F) : list N :=
    (txt "BEGIN_HEADER" ++ [10%N]) ++ unlines (lines L h) ++ txt "END_HEADER" ++ [10%N].
  Lemma header_text_ok L h : header_ok L h -> header_text show L h = Val (text_of L h).
  Proof. intros (H1 & H2 & H3 & H4 & H5 & H6 & H7). now apply header_lines. Qed.
  Lemma unlines_bytes ls : Forall plain_text ls -> bytes_ok (unlines ls).
  Proof using. clear show strtod F.
    intros H. unfold unlines. apply Forall_forall. intros c Hc. apply in_concat in Hc as (x & Hx & Hc). apply in_map_iff in Hx as (l & <- & Hl).
    rewrite Forall_forall in H. destruct (H l Hl) as [B _]. apply in_app_or in Hc as [Hc|[<-|[]]]; [|reflexivity].
    unfold bytes_ok in B. rewrite Forall_forall in B. now apply B.
  Qed.
  Lemma text_bytes L h : prints_well show -> header_ok L h -> bytes_ok (text_of L h).
  Proof.
    intros HS HO. unfold text_of. apply Forall_app. split; [|apply Forall_app; split].
    - apply Forall_forall. intros c Hc. revert c Hc. apply Forall_forall. repeat constructor.
    - apply unlines_bytes. now apply plain_lines.
    - apply Forall_forall. intros c Hc. revert c Hc. apply Forall_forall. repeat constructor.
  Qed.
  Lemma begin_ok : bytes_ok (txt "BEGIN_HEADER") /\ line_ok 128 (txt "BEGIN_HEADER").
  Proof.
    split; [apply Forall_forall; intros c Hc; revert c Hc; apply Forall_forall; repeat constructor|].
    split; [|split]; [cbn; intuition discriminate|cbn; intuition discriminate|cbn; lia].
  Qed.
  Lemma unlines_length ls : length ls <= length (unlines ls).
  Proof using. clear show strtod F. induction ls as [|l ls IH]; [cbn; lia|]. rewrite unlines_cons, !app_length. cbn [length]. lia. Qed.

  Lemma write_header_ok e L h st : prints_well show -> header_ok L h -> writeArchivHeader show L e h st = Val (emit (text_of L h) st).
  Proof.
    intros HS HO. unfold writeArchivHeader. rewrite header_text_ok by exact HO. cbn [bind]. rewrite write_chars_ok by now apply text_bytes. reflexivity.
  Qed.

  Lemma list_eq_refl {X} (D : forall x y : X, {x = y} + {x <> y}) l (a b : res unit) : (if list_eq_dec D l l then a else b) = a.
  Proof. destruct (list_eq_dec D l l); congruence. Qed.
  Lemma mapM_some l : mapM of_option (map (fun x : nat => Some (Z.of_nat x)) l) = Val (map Z.of_nat l).
  Proof. induction l as [|x l IH]; [reflexivity|]. cbn [map mapM]. cbn [of_option bind]. rewrite IH. reflexivity. Qed.

  Theorem read_header_ok L h h0 rest st : prints_well show -> header_ok L h -> lines_fit h -> ready st (text_of L h ++ rest) ->
    readArchivHeader strtod L h0 st = Val (result L h (set_mat_size 18 (set_nrow (repeat None 4) h0)), consume (text_of L h) st).
  Proof.
    intros HS HO HF R. unfold readArchivHeader. unfold text_of in R at 1. set (b := txt "BEGIN_HEADER" ++ [10%N]) in *.
    set (body := unlines (lines L h) ++ txt "END_HEADER" ++ [10%N]) in *. rewrite <- app_assoc in R.
    destruct begin_ok as [B1 B2]. rewrite (read_string_ok 128 _ _ st B1 B2 R). cbn [bind].
    replace (same (txt "BEGIN_HEADER") (txt "BEGIN_HEADER")) with true by reflexivity. fold b.
    rewrite (read_lines_ok strtod (lines L h) _ _ (result L h (set_mat_size 18 (set_nrow (repeat None 4) h0)), 4) rest).
    - cbn [bind]. unfold check_size. change (4 =? Nd) with true. cbv iota.
      replace (nrow (result L h (set_mat_size 18 (set_nrow (repeat None 4) h0)))) with (map (fun x => Some (Z.of_nat x)) L) by reflexivity.
      rewrite mapM_some. cbn [bind]. rewrite list_eq_refl. cbn [bind]. fold body. rewrite consume_app. reflexivity.
    - destruct R as (_ & _ & pre & D & _). unfold consume, add_crc, with_crc, at_get. destruct st as [jn d g p f c]. cbn [s_data] in *. subst d.
      unfold body. rewrite !app_length. pose proof (unlines_length (lines L h)). lia.
    - apply Forall_good_short; [now apply good_lines|now apply short_lines].
    - now apply run_all.
    - fold body. now apply consume_ready.
  Qed.

  Theorem read_header_long L h h0 rest st : prints_well show -> header_ok L h -> ~ lines_fit h -> ready st (text_of L h ++ rest) ->
    readArchivHeader strtod L h0 st = Abort.
  Proof.
    intros HS HO HF R. unfold readArchivHeader. unfold text_of in R at 1. set (b := txt "BEGIN_HEADER" ++ [10%N]) in *.
    rewrite <- !app_assoc in R.
    destruct begin_ok as [B1 B2]. rewrite (read_string_ok 128 _ _ st B1 B2 R). cbn [bind].
    replace (same (txt "BEGIN_HEADER") (txt "BEGIN_HEADER")) with true by reflexivity. fold b.
    rewrite (read_lines_long strtod P (lines L h)) with (rest := txt "END_HEADER" ++ [10%N] ++ rest); [reflexivity| | | | |].
    - destruct R as (_ & _ & pre & D & _). unfold consume, add_crc, with_crc, at_get. destruct st as [jn d g p f c]. cbn [s_data] in *. subst d.
      rewrite !app_length. pose proof (unlines_length (lines L h)). lia.
    - reflexivity.
    - now apply good_lines.
    - now apply long_lines.
    - now apply consume_ready.
  Qed.
End Header.

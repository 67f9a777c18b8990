(** C98: damaged gauge archives. *)
From Coq Require Import String List Arith NArith ZArith Bool Ascii Lia Ring_theory Permutation.
From Verif Require Import Base LayoutModel LayoutSpec LayoutProofs LayoutOk LayoutCases SetModel SetProofs MapProofs CrcModel CrcSpec IoModel IoSpec IoProofs
  LatIoModel LatIoSpec LatIoProofs LatIoOk NerscModel NerscSpec NerscProofs NerscAlgebra NerscHeader NerscHeaderSpec NerscText NerscHeaderOk NerscArchive NerscItems NerscForeign
  PropNersc DamageSpec DamageProofs.
Import ListNotations.
Local Open Scope nat_scope.

Lemma file_ready bs : ready (file_reader bs) bs.
Proof. split; [reflexivity|]. split; [intros X; discriminate|]. exists []. split; reflexivity. Qed.
Lemma mat_size_means {F} (strtod : list N -> option F) xs : forall h, mat_ok (mat_size h) -> mat_ok (mat_size (fold_left (fun h x => means strtod x h) xs h)).
Proof.
  induction xs as [|x xs IH]; intros h H; [exact H|]. cbn [fold_left]. apply IH. destruct x; cbn [means]; try exact H; try (now left); try (now right).
  - destruct (strtod s); exact H.
  - destruct (strtod s); exact H.
  - destruct f; exact H.
  - destruct k; exact H.
Qed.
Lemma order_volume b : build_ok b -> length (site_order b) = volume (build_size b).
Proof. intros HB. rewrite <- order_crt by exact HB. now rewrite map_length, seq_length. Qed.

(** What a header says. *)
Definition header_of {F} (strtod : list N -> option F) (xs : list item) (h0 : @header F) : header :=
  fold_left (fun h x => means strtod x h) xs (set_mat_size 18 (set_nrow [None; None; None; None] h0)).
(** A header of lines that fit, for a four-dimensional lattice of the given size and numbers of 4 or 8 bytes. *)
Definition good_header {F} (strtod : list N -> option F) (L : list nat) (xs : list item) (h0 : @header F) : Prop :=
  Forall item_ok xs /\ Forall (fun x => length (line_of x) < 128) xs /\ length (boundary h0) = 4 /\ length L = 4 /\
  Permutation (sizes xs) (combine [1;2;3;4] (map Z.of_nat L)) /\ (float_size (header_of strtod xs h0) = 4 \/ float_size (header_of strtod xs h0) = 8).

Lemma read_good F (strtod : list N -> option F) L xs h0 rest : good_header strtod L xs h0 ->
  exists st, readArchivHeader strtod L h0 (file_reader (header_file xs ++ rest)) = Val (header_of strtod xs h0, st) /\ ready st rest.
Proof.
  intros (HX & HL & HB & HN & HP & _). pose proof (file_ready (header_file xs ++ rest)) as R.
  assert (RR : readable (header_file xs) (file_reader (header_file xs ++ rest))).
  { split; [reflexivity|]. split; [discriminate|]. split; [cbn; lia|]. exists rest. reflexivity. }
  destruct (C45_any_header F strtod L xs h0 _ HX HL HB RR) as [_ H]. destruct (H (map Z.of_nat L)) as (_ & H1 & _); [now rewrite map_length|exact HP|].
  destruct (H1 eq_refl) as (st & E & _). exists st. split; [exact E|].
  pose proof (read_items strtod L xs h0 rest _ HX HL HB R) as E2. cbv zeta in E2. rewrite E in E2. unfold bind in E2.
  destruct (check_size _ _ _); try discriminate E2. injection E2 as ->. now apply consume_ready.
Qed.

(** C98.  An archive whose links have the right number of bytes is accepted exactly when the sum of its 32-bit words is the
    checksum of its header and the plaquette and the link trace are close to those of the header; everything else is refused. *)
Theorem C98_exact : forall A F (rO rI : A) radd rmul rsub ropp (R : ring_theory rO rI radd rmul rsub ropp eq) cast
  (strtod : list N -> option F) mesplq close e b xs h0 u0 links rest, build_ok b -> good_header strtod (build_size b) xs h0 ->
  let h := header_of strtod xs h0 in
  Forall is_byte links -> length links = payload_size (float_size h) (mat_size h) (build_size b) ->
  exists w G, site_bytes (float_size h) (all_words b 4 w) = links /\
    (forall dd c, dd < 4 -> in_lattice (build_size b) c ->
       numbers (rows_of (mat_size h)) (link_at b G dd c) = map (cast (float_size h)) (w dd c) /\
       (mat_size h = 12 -> forall j, j < 3 -> link_at b G dd c 2 j
          = bar ropp (cross_product radd rmul rsub (link_at b G dd c 0) (link_at b G dd c 1) j))) /\
    readArchiv strtod (build_size b) rO radd rmul rsub cast mesplq close e b h0 u0 (header_file xs ++ links ++ rest)
    = if (sum_of (words32 links) =? checksum h)%N && (close (w_plaq h) (fst (mesplq b G)) && close (link h) (snd (mesplq b G))) then Val (h, G) else Abort.
Proof.
  intros A F rO rI radd rmul rsub ropp R cast strtod mesplq close e b xs h0 u0 P rest HB HG h HF HL.
  assert (HM : mat_ok (mat_size h)) by (apply mat_size_means; now right). assert (HS : float_size h = 4 \/ float_size h = 8) by apply HG.
  destruct (decode (float_size h) (mat_size h * 4 * volume (build_size b)) HS P) as (W & [HW1 HW2] & HWP & HT); [unfold payload_size in HL; lia|exact HF|].
  destruct (split_words b 4 (mat_size h) (float_size h) W HB) as (w & EW & Hw); [rewrite order_volume by exact HB; lia|exact HW2|].
  destruct (read_good F strtod (build_size b) xs h0 (P ++ rest) HG) as (st & EH & R1). subst W. rewrite <- HWP in R1. rewrite <- be_site_bytes in R1.
  destruct (read_payload_ok rO radd rmul rsub (fun _ => 0%N) cast e 4 (mat_size h) (float_size h) HM HS w b u0 rest st HB Hw R1) as (G & E & EG).
  exists w, G. split; [exact HWP|]. split.
  - intros dd c Hd Hc. destruct (Hw dd c Hd Hc) as [L _]. rewrite EG by assumption. unfold mat. split.
    + apply (matrix_of_numbers rO radd rmul rsub (mat_size h)); [exact HM|]. now rewrite map_length.
    + intros E12 j Hj. rewrite E12 in *. apply (matrix_third rO rI radd rmul rsub ropp R); [|exact Hj]. now rewrite map_length.
  - unfold readArchiv. rewrite EH. fold h. cbn [bind]. change Nd with 4. rewrite E. cbn [bind]. rewrite !sum_total, HT.
    destruct (_ =? _)%N; [|reflexivity]. cbn [negb andb]. destruct (close (w_plaq h) _); [|reflexivity]. cbn [negb andb]. destruct (close (link h) _); reflexivity.
Qed.
Print Assumptions C98_exact.

(** An archive with the right checksum, in which one byte, or any of the four bytes of one 32-bit word, are changed, is refused. *)
Theorem C98_one_word : forall A F (rO : A) radd rmul rsub rI ropp (R : ring_theory rO rI radd rmul rsub ropp eq) cast
  (strtod : list N -> option F) mesplq close e b xs h0 u0 links links' rest, build_ok b -> good_header strtod (build_size b) xs h0 ->
  let h := header_of strtod xs h0 in
  Forall is_byte links -> Forall is_byte links' -> length links = payload_size (float_size h) (mat_size h) (build_size b) ->
  sum_of (words32 links) = checksum h -> one_group_changed links links' \/ one_byte_changed links links' ->
  readArchiv strtod (build_size b) rO radd rmul rsub cast mesplq close e b h0 u0 (header_file xs ++ links' ++ rest) = Abort.
Proof.
  intros A F rO radd rmul rsub rI ropp R cast strtod mesplq close e b xs h0 u0 P P' rest HB HG h HF HF' HL HC HD.
  assert (H4 : length P mod 4 = 0).
  { rewrite HL. unfold payload_size. destruct HG as (_ & _ & _ & _ & _ & [E|E]); fold h in E; rewrite E.
    - rewrite <- !Nat.mul_assoc, Nat.mul_comm. apply Nat.mod_mul. discriminate.
    - replace (8 * mat_size h * 4 * volume (build_size b)) with (8 * mat_size h * volume (build_size b) * 4) by lia. apply Nat.mod_mul. discriminate. }
  assert (HD' : one_group_changed P P') by (destruct HD as [HD|HD]; [exact HD|now apply byte_group]).
  assert (HL' : length P' = length P).
  { destruct HD' as (a & x & y & c & -> & -> & _ & Lx & Ly & _). rewrite !app_length. lia. }
  destruct (C98_exact A F rO rI radd rmul rsub ropp R cast strtod mesplq close e b xs h0 u0 P' rest HB HG HF') as (w & G & _ & _ & E); [fold h; congruence|].
  rewrite E. fold h. pose proof (group_sum P P' HD' HF HF') as NE. rewrite HC in NE. destruct (N.eqb_spec (sum_of (words32 P')) (checksum h)); [contradiction|reflexivity].
Qed.
Print Assumptions C98_one_word.

(** The checksum does not depend on the order: an archive whose 32-bit words were exchanged in any way (matrices, sites or directions
    swapped, blocks of the file in the wrong places) is refused only if the plaquette or the link trace is not close. *)
Theorem C98_reordered_refuted : forall A F (rO rI : A) radd rmul rsub ropp (R : ring_theory rO rI radd rmul rsub ropp eq) cast
  (strtod : list N -> option F) mesplq close e b xs h0 u0 links links' rest, build_ok b -> good_header strtod (build_size b) xs h0 ->
  let h := header_of strtod xs h0 in
  Forall is_byte links -> Forall is_byte links' -> length links = payload_size (float_size h) (mat_size h) (build_size b) -> length links' = length links ->
  sum_of (words32 links) = checksum h -> Permutation (words32 links') (words32 links) ->
  exists w G, site_bytes (float_size h) (all_words b 4 w) = links' /\
    (forall dd c, dd < 4 -> in_lattice (build_size b) c ->
       numbers (rows_of (mat_size h)) (link_at b G dd c) = map (cast (float_size h)) (w dd c)) /\
    (close (w_plaq h) (fst (mesplq b G)) = true -> close (link h) (snd (mesplq b G)) = true ->
     readArchiv strtod (build_size b) rO radd rmul rsub cast mesplq close e b h0 u0 (header_file xs ++ links' ++ rest) = Val (h, G)).
Proof.
  intros A F rO rI radd rmul rsub ropp R cast strtod mesplq close e b xs h0 u0 P P' rest HB HG h HF HF' HL HL' HC HP.
  destruct (C98_exact A F rO rI radd rmul rsub ropp R cast strtod mesplq close e b xs h0 u0 P' rest HB HG HF') as (w & G & E1 & E2 & E); [fold h; congruence|].
  exists w, G. split; [exact E1|]. split; [intros dd c Hd Hc; now apply E2|]. intros C1 C2. rewrite E. fold h. rewrite C1, C2.
  assert (ES : sum_of (words32 P') = sum_of (words32 P)).
  { unfold sum_of. f_equal. clear - HP. induction HP; cbn [fold_right]; lia. }
  rewrite ES, HC, N.eqb_refl. reflexivity.
Qed.
Print Assumptions C98_reordered_refuted.

(** In a single-process build, an archive that ends before its last link is refused. *)
Theorem C98_short : forall A F (rO : A) radd rmul rsub cast
  (strtod : list N -> option F) mesplq close e k L xs h0 u0 links, good_header strtod L xs h0 ->
  let h := header_of strtod xs h0 in
  Forall is_byte links -> length links < payload_size (float_size h) (mat_size h) L ->
  readArchiv strtod L rO radd rmul rsub cast mesplq close e (Single k L) h0 u0 (header_file xs ++ links) = Abort.
Proof.
  intros A F rO radd rmul rsub cast strtod mesplq close e k L xs h0 u0 P HG h HF HL.
  assert (HM : mat_ok (mat_size h)) by (apply mat_size_means; now right). assert (HS : float_size h = 4 \/ float_size h = 8) by apply HG.
  destruct (read_good F strtod L xs h0 P HG) as (st & EH & R1). unfold readArchiv. rewrite EH. fold h. cbn [bind]. change Nd with 4.
  rewrite (read_payload_short rO radd rmul rsub cast e (mat_size h) (float_size h) HM HS k L u0 st P R1 HF HL). reflexivity.
Qed.
Print Assumptions C98_short.

(** In a multi-node build the end of the file is not noticed.  If at least one site can be read, the archive is read exactly like the
    file in which every missing site is what the buffer held; *)
Theorem C98_short_exact : forall A F (rO : A) radd rmul rsub cast
  (strtod : list N -> option F) mesplq close e grid k M L xs h0 u0 links rest, build_ok (Multi grid k M L) -> good_header strtod L xs h0 ->
  let h := header_of strtod xs h0 in
  Forall is_byte links -> float_size h * (mat_size h * 4) <= length links ->
  readArchiv strtod L rO radd rmul rsub cast mesplq close e (Multi grid k M L) h0 u0 (header_file xs ++ links)
  = readArchiv strtod L rO radd rmul rsub cast mesplq close e (Multi grid k M L) h0 u0
      (header_file xs ++ taken_for e (float_size h) (mat_size h) L links ++ rest).
Proof.
  intros A F rO radd rmul rsub cast strtod mesplq close e grid k M L xs h0 u0 P rest HB HG h HF HL.
  assert (HS : float_size h = 4 \/ float_size h = 8) by apply HG.
  assert (HV : 1 <= volume L) by (apply volume_pos; apply (size_ok (Multi grid k M L) HB)).
  destruct (read_good F strtod L xs h0 P HG) as (st & EH & R1).
  destruct (read_good F strtod L xs h0 (taken_for e (float_size h) (mat_size h) L P ++ rest) HG) as (st2 & EH2 & R2).
  unfold readArchiv. rewrite EH, EH2. fold h. cbn [bind]. change Nd with 4.
  exact (read_payload_many rO radd rmul rsub cast e (mat_size h) (float_size h) HS _
    (fun u c => if negb (c =? checksum h)%N then Abort else if negb (close (w_plaq h) (fst (mesplq (Multi grid k M L) u))) then Abort
      else if negb (close (link h) (snd (mesplq (Multi grid k M L) u))) then Abort else Val (h, u)) grid k M L u0 st P st2 rest R1 HF HV HL R2).
Qed.
Print Assumptions C98_short_exact.
(** so that it is accepted whenever the words of that file have the right sum and the plaquette and the link trace are close; *)
Theorem C98_short_refuted : forall A F (rO rI : A) radd rmul rsub ropp (R : ring_theory rO rI radd rmul rsub ropp eq) cast
  (strtod : list N -> option F) mesplq close e grid k M L xs h0 u0 links, build_ok (Multi grid k M L) -> good_header strtod L xs h0 ->
  let h := header_of strtod xs h0 in let b := Multi grid k M L in
  Forall is_byte links -> float_size h * (mat_size h * 4) <= length links ->
  sum_of (words32 (taken_for e (float_size h) (mat_size h) L links)) = checksum h ->
  exists w G, site_bytes (float_size h) (all_words b 4 w) = taken_for e (float_size h) (mat_size h) L links /\
    (forall dd c, dd < 4 -> in_lattice L c -> numbers (rows_of (mat_size h)) (link_at b G dd c) = map (cast (float_size h)) (w dd c)) /\
    (close (w_plaq h) (fst (mesplq b G)) = true -> close (link h) (snd (mesplq b G)) = true ->
     readArchiv strtod L rO radd rmul rsub cast mesplq close e b h0 u0 (header_file xs ++ links) = Val (h, G)).
Proof.
  intros A F rO rI radd rmul rsub ropp R cast strtod mesplq close e grid k M L xs h0 u0 P HB HG h b HF HL HC.
  assert (HS : float_size h = 4 \/ float_size h = 8) by apply HG.
  assert (HV : 1 <= volume L) by (apply volume_pos; apply (size_ok b HB)).
  destruct (C98_exact A F rO rI radd rmul rsub ropp R cast strtod mesplq close e b xs h0 u0 (taken_for e (float_size h) (mat_size h) L P) [] HB HG
    (taken_bytes _ _ _ _ _ HF) (taken_length _ _ _ _ _ HS HV HL)) as (w & G & E1 & E2 & E).
  exists w, G. split; [exact E1|]. split; [intros dd c Hd Hc; now apply E2|]. intros C1 C2. unfold b. rewrite C98_short_exact with (rest := []) by assumption. fold h b.
  change (build_size b) with L in E. rewrite E. fold h. rewrite HC, N.eqb_refl, C1, C2. reflexivity.
Qed.
Print Assumptions C98_short_refuted.
(** if not even one site can be read, memory that was never set is used. *)
Theorem C98_empty_refuted : forall A F (rO : A) radd rmul rsub cast
  (strtod : list N -> option F) mesplq close e grid k M L xs h0 u0 links, build_ok (Multi grid k M L) -> good_header strtod L xs h0 ->
  let h := header_of strtod xs h0 in
  length links < float_size h * (mat_size h * 4) ->
  readArchiv strtod L rO radd rmul rsub cast mesplq close e (Multi grid k M L) h0 u0 (header_file xs ++ links) = Undef.
Proof.
  intros A F rO radd rmul rsub cast strtod mesplq close e grid k M L xs h0 u0 P HB HG h HL.
  assert (HS : float_size h = 4 \/ float_size h = 8) by apply HG.
  assert (HV : 1 <= volume L) by (apply volume_pos; apply (size_ok (Multi grid k M L) HB)).
  destruct (read_good F strtod L xs h0 P HG) as (st & EH & R1). unfold readArchiv. rewrite EH. fold h. cbn [bind]. change Nd with 4.
  rewrite (read_payload_none rO radd rmul rsub cast e (mat_size h) (float_size h) HS grid k M L u0 st P R1 HV HL). reflexivity.
Qed.
Print Assumptions C98_empty_refuted.

(** A case: two sites, two rows per matrix, words of 4 bytes; the same archive with the first two matrices exchanged. *)
Definition damage_items : list item :=
  [TwoRows; SizeIs 1 2; SizeIs 2 1; SizeIs 3 1; SizeIs 4 1; ChecksumIs 208456714; LinkTraceIs (txt "1"); PlaquetteIs (txt "1"); WordsAre Ieee32Big].
Definition damage_links : list N := map (fun i => N.of_nat (i mod 251)) (seq 0 384).
Definition damage_swapped : list N := firstn 48 (skipn 48 damage_links) ++ firstn 48 damage_links ++ skipn 96 damage_links.
Definition damage_read (links : list N) :=
  readArchiv strtod_case [2;1;1;1] 0%Z Z.add Z.mul Z.sub cast_case (fun _ _ => (true, true)) Bool.eqb LittleE (Single LEXICO [2;1;1;1]) header_case
    (fun _ _ _ _ _ => (0, 0))%Z (header_file damage_items ++ links).
Example C98_case : let b := Single LEXICO [2;1;1;1] in
  build_ok b /\ good_header strtod_case (build_size b) damage_items header_case /\
  Forall is_byte damage_links /\ Forall is_byte damage_swapped /\ length damage_links = payload_size 4 12 [2;1;1;1] /\ length damage_swapped = length damage_links /\
  float_size (header_of strtod_case damage_items header_case) = 4 /\ mat_size (header_of strtod_case damage_items header_case) = 12 /\
  sum_of (words32 damage_links) = checksum (header_of strtod_case damage_items header_case) /\
  Permutation (words32 damage_swapped) (words32 damage_links) /\
  match damage_read damage_links, damage_read damage_swapped with
  | Val (_, G), Val (_, G') => link_at b G 0 [0;0;0;0] 0 0 = (66051, 67438087)%Z /\ link_at b G' 0 [0;0;0;0] 0 0 = (808530483, 875902519)%Z
  | _, _ => False
  end /\
  one_byte_changed damage_links (firstn 100 damage_links ++ 101%N :: skipn 101 damage_links) /\
  damage_read (firstn 100 damage_links ++ 101%N :: skipn 101 damage_links) = Abort /\
  damage_read (firstn 383 damage_links) = Abort.
Proof.
  intros b. split; [apply adm1_case; reflexivity|]. split.
  { split; [|split; [|split; [reflexivity|split; [reflexivity|split; [|now left]]]]].
    - repeat apply Forall_cons; try apply Forall_nil; cbn [item_ok]; try exact I; try reflexivity;
        try (split; [lia|split; [discriminate|reflexivity]]);
        (split; [apply one_line_dec; reflexivity|intros c Hc; injection Hc as <-; lia]).
    - repeat (apply Forall_cons; [vm_compute; lia|]). apply Forall_nil.
    - apply Permutation_refl. }
  assert (B : forall l, forallb (fun x => (x <? 256)%N) l = true -> Forall is_byte l).
  { intros l H. rewrite forallb_forall in H. apply Forall_forall. intros x Hx. specialize (H x Hx). unfold is_byte. lia. }
  split; [apply B; reflexivity|]. split; [apply B; reflexivity|]. split; [reflexivity|]. split; [reflexivity|]. split; [reflexivity|]. split; [reflexivity|].
  split; [vm_compute; reflexivity|]. split.
  { unfold damage_swapped. rewrite !words32_app by reflexivity. rewrite app_assoc.
    replace damage_links with (firstn 48 damage_links ++ firstn 48 (skipn 48 damage_links) ++ skipn 96 damage_links) at 4 by reflexivity.
    rewrite !words32_app by reflexivity. rewrite app_assoc. apply Permutation_app_tail, Permutation_app_comm. }
  split; [vm_compute; split; reflexivity|]. split; [|split; vm_compute; reflexivity].
  exists (firstn 100 damage_links), 100%N, 101%N, (skipn 101 damage_links). split; [reflexivity|]. split; [reflexivity|discriminate].
Qed.

(** A case on two nodes of a little-endian machine: an archive, and the same archive cut in the middle, which is also accepted. *)
Definition cut_items : list item :=
  [TwoRows; SizeIs 1 2; SizeIs 2 1; SizeIs 3 1; SizeIs 4 1; ChecksumIs 4092851152; LinkTraceIs (txt "1"); PlaquetteIs (txt "1"); WordsAre Ieee32Big].
Definition cut_links : list N := map (fun i => N.of_nat (i mod 251)) (seq 0 192).
Definition cut_whole : list N :=
  let r := reversed 4 48 cut_links in cut_links ++ firstn 48 (skipn 48 r) ++ firstn 48 r ++ skipn 96 r.
Definition cut_build : build := Multi false LEXICO (lex_machine [2;1;1;1]) [2;1;1;1].
Definition cut_read (links : list N) :=
  readArchiv strtod_case [2;1;1;1] 0%Z Z.add Z.mul Z.sub cast_case (fun _ _ => (true, true)) Bool.eqb LittleE cut_build header_case
    (fun _ _ _ _ _ => (0, 0))%Z (header_file cut_items ++ links).
Example C98_cut_case :
  build_ok cut_build /\ good_header strtod_case [2;1;1;1] cut_items header_case /\ Forall is_byte cut_links /\
  float_size (header_of strtod_case cut_items header_case) = 4 /\ mat_size (header_of strtod_case cut_items header_case) = 12 /\
  length cut_links = 4 * (12 * 4) /\ length cut_whole = payload_size 4 12 [2;1;1;1] /\ firstn 192 cut_whole = cut_links /\
  sum_of (words32 (taken_for LittleE 4 12 [2;1;1;1] cut_links)) = checksum (header_of strtod_case cut_items header_case) /\
  match cut_read cut_whole, cut_read cut_links with
  | Val (_, G), Val (_, G') => link_at cut_build G 0 [1;0;0;0] 0 0 = (858927408, 926299444)%Z /\ link_at cut_build G' 0 [1;0;0;0] 0 0 = (50462976, 117835012)%Z
  | _, _ => False
  end /\ cut_read (firstn 191 cut_links) = Undef.
Proof.
  split; [apply admP_case; reflexivity|]. split.
  { split; [|split; [|split; [reflexivity|split; [reflexivity|split; [|now left]]]]].
    - repeat apply Forall_cons; try apply Forall_nil; cbn [item_ok]; try exact I; try reflexivity;
        try (split; [lia|split; [discriminate|reflexivity]]);
        (split; [apply one_line_dec; reflexivity|intros c Hc; injection Hc as <-; lia]).
    - repeat (apply Forall_cons; [vm_compute; lia|]). apply Forall_nil.
    - apply Permutation_refl. }
  split.
  { apply Forall_forall. intros x Hx. assert (H : forallb (fun x => (x <? 256)%N) cut_links = true) by reflexivity. rewrite forallb_forall in H.
    specialize (H x Hx). unfold is_byte. lia. }
  split; [reflexivity|]. split; [reflexivity|]. split; [reflexivity|]. split; [reflexivity|]. split; [reflexivity|]. split; [vm_compute; reflexivity|].
  split; [vm_compute; split; reflexivity|vm_compute; reflexivity].
Qed.

(** C35-C38, C62, C63: input and output of lattice fields, single-site access. *)
From Coq Require Import List Arith NArith ZArith Bool Lia.
From Verif Require Import Base LayoutModel LayoutSpec LayoutProofs LayoutOk LayoutCases SetModel CrcModel IoModel IoSpec
  LatIoModel LatIoSpec LatIoProofs LatIoOk.
Import ListNotations.
Local Open Scope nat_scope.

(** C35.  In every build that is not a 3-d checkerboard one, writing a field stores its sites in
    lexicographic order as big-endian words. *)
Theorem C35_file_contents : forall e size nmemb b F st,
  In size [1;2;4;8;16] -> build_ok b -> build_kind b <> CB3D -> strip_room b (size * nmemb) ->
  field_ok size nmemb b F -> writable st ->
  exists st', write_lattice e size nmemb b F st = Val st' /\
    wrote (sites_bytes size b F (all_sites (build_size b))) st st'.
Proof.
  intros e size nmemb b F st Hs HB HK HR HF HW.
  destruct (write_lattice_ok e size nmemb b F st Hs HB (or_introl HK) HR HF HW) as (st' & E & W).
  rewrite file_order_lex in W by exact HK. eauto.
Qed.
Print Assumptions C35_file_contents.

(** Reading such bytes stores the value [v c] at every site c. *)
Theorem C35_file_read : forall e size nmemb b F v st,
  In size [1;2;4;8;16] -> build_ok b -> build_kind b <> CB3D ->
  (forall c, in_lattice (build_size b) c -> site_ok size nmemb (v c)) ->
  let bytes := concat (map (fun c => site_bytes size (v c)) (all_sites (build_size b))) in
  readable bytes st ->
  exists G st', read_lattice e size nmemb b F st = Val (G, st') /\
    (forall c, in_lattice (build_size b) c -> field_at b G c = v c) /\ was_read bytes st st'.
Proof.
  intros e size nmemb b F v st Hs HB HK HV bytes HR.
  pose proof (read_lattice_ok e size nmemb b F v st Hs HB (or_introl HK) HV) as H.
  rewrite file_order_lex in H by exact HK. exact (H HR).
Qed.
Print Assumptions C35_file_read.

(** A file written by one build and read by another, on machines of any byte order, restores the
    field; the checksums agree. *)
Theorem C35_files_portable : forall e1 e2 size nmemb b1 b2 F G0,
  In size [1;2;4;8;16] -> build_ok b1 -> build_ok b2 -> build_size b1 = build_size b2 ->
  build_kind b1 <> CB3D -> build_kind b2 <> CB3D -> strip_room b1 (size * nmemb) -> field_ok size nmemb b1 F ->
  exists w G r, write_lattice e1 size nmemb b1 F file_writer = Val w /\
    read_lattice e2 size nmemb b2 G0 (file_reader (s_data w)) = Val (G, r) /\
    (forall c, in_lattice (build_size b2) c -> field_at b2 G c = field_at b1 F c) /\
    s_get r = length (s_data w) /\ s_crc r = s_crc w.
Proof.
  intros. apply lattice_round_trip; auto; [left; auto|left; auto|tauto].
Qed.
Print Assumptions C35_files_portable.

Definition demo_field : field := fun q i => [N.of_nat (16 * q + i); N.of_nat (255 - i)].
Lemma demo_ok k M L : build_ok (Multi false k M L) -> num_nodes M <= 4 -> sites_on_node M L <= 16 ->
  field_ok 1 2 (Multi false k M L) demo_field.
Proof.
  intros HB Hn Hs c Hc. destruct (lay_ok _ HB) as (_ & _ & B & _). destruct (B c Hc) as [[Hq Hi] _].
  cbn [fst snd lay_of par_layout l_nodes l_sites l_node l_lin] in Hq, Hi.
  split; [reflexivity|]. unfold field_at, demo_field. cbn [lay_of par_layout l_node l_lin].
  change (2 ^ (8 * N.of_nat 1))%N with 256%N. repeat constructor; lia.
Qed.
Example C35_case :
  let b1 := Multi false CB2 (lex_machine [2;2]) [8;4] in let b2 := Single CB32 [8;4] in
  build_ok b1 /\ build_ok b2 /\ strip_room b1 2 /\ field_ok 1 2 b1 demo_field /\
  match write_lattice LittleE 1 2 b1 demo_field file_writer with
  | Val w => firstn 12 (s_data w) = [0;255;4;251;1;254;5;250;16;255;20;251]%N /\
      match read_lattice BigE 1 2 b2 (fun _ _ => []) (file_reader (s_data w)) with
      | Val (G, r) => field_at b2 G [5;3] = field_at b1 demo_field [5;3] /\ s_crc r = s_crc w
      | _ => False
      end
  | _ => False
  end.
Proof.
  intros b1 b2. assert (B1 : build_ok b1) by (apply admP_case; reflexivity).
  split; [exact B1|]. split; [apply adm1_case; reflexivity|]. split; [right; cbn; lia|].
  split; [apply demo_ok; [exact B1|vm_compute; lia|vm_compute; lia]|]. vm_compute. repeat split.
Qed.

(** C36 is false.  A 3-d checkerboard build writes (where runs of sites do not cross nodes, in particular
    in a single process) with the time coordinate fastest. *)
Theorem C36_time_fastest : forall e size nmemb b F st,
  In size [1;2;4;8;16] -> build_ok b -> build_kind b = CB3D -> runs_on_one_node b -> strip_room b (size * nmemb) ->
  field_ok size nmemb b F -> writable st ->
  exists st', write_lattice e size nmemb b F st = Val st' /\
    wrote (sites_bytes size b F (all_sites_t (build_size b))) st st'.
Proof.
  intros e size nmemb b F st Hs HB HK HU HR HF HW.
  destruct (write_lattice_ok e size nmemb b F st Hs HB (or_intror HU) HR HF HW) as (st' & E & W).
  rewrite HK in W. eauto.
Qed.
Print Assumptions C36_time_fastest.

(** Such builds read their own files. *)
Theorem C36_own_files : forall e1 e2 size nmemb b1 b2 F G0,
  In size [1;2;4;8;16] -> build_ok b1 -> build_ok b2 -> build_size b1 = build_size b2 ->
  build_kind b1 = CB3D -> build_kind b2 = CB3D -> runs_on_one_node b1 -> runs_on_one_node b2 ->
  strip_room b1 (size * nmemb) -> field_ok size nmemb b1 F ->
  exists w G r, write_lattice e1 size nmemb b1 F file_writer = Val w /\
    read_lattice e2 size nmemb b2 G0 (file_reader (s_data w)) = Val (G, r) /\
    (forall c, in_lattice (build_size b2) c -> field_at b2 G c = field_at b1 F c) /\
    s_get r = length (s_data w) /\ s_crc r = s_crc w.
Proof. intros. apply lattice_round_trip; auto; [right; auto|right; auto|tauto]. Qed.
Print Assumptions C36_own_files.

(** The field a 3-d checkerboard build reads from the file of another build: at site c it has the value of
    the site d whose place in the one order is the place of c in the other. *)
Theorem C36_other_files_refuted : forall e1 e2 size nmemb b1 b2 F G0,
  In size [1;2;4;8;16] -> build_ok b1 -> build_ok b2 -> build_size b1 = build_size b2 ->
  build_kind b1 <> CB3D -> build_kind b2 = CB3D -> runs_on_one_node b2 -> strip_room b1 (size * nmemb) -> field_ok size nmemb b1 F ->
  exists w G r, write_lattice e1 size nmemb b1 F file_writer = Val w /\
    read_lattice e2 size nmemb b2 G0 (file_reader (s_data w)) = Val (G, r) /\
    forall c d, in_lattice (build_size b1) c -> in_lattice (build_size b1) d -> lexnum (build_size b1) d = lexnum_t (build_size b1) c ->
      field_at b2 G c = field_at b1 F d.
Proof. exact mixed_up. Qed.
Print Assumptions C36_other_files_refuted.
Theorem C36_own_files_elsewhere_refuted : forall e1 e2 size nmemb b1 b2 F G0,
  In size [1;2;4;8;16] -> build_ok b1 -> build_ok b2 -> build_size b1 = build_size b2 ->
  build_kind b1 = CB3D -> build_kind b2 <> CB3D -> runs_on_one_node b1 -> strip_room b1 (size * nmemb) -> field_ok size nmemb b1 F ->
  exists w G r, write_lattice e1 size nmemb b1 F file_writer = Val w /\
    read_lattice e2 size nmemb b2 G0 (file_reader (s_data w)) = Val (G, r) /\
    forall c d, in_lattice (build_size b1) c -> in_lattice (build_size b1) d -> lexnum_t (build_size b1) d = lexnum (build_size b1) c ->
      field_at b2 G c = field_at b1 F d.
Proof. exact mixed_up_t. Qed.
Print Assumptions C36_own_files_elsewhere_refuted.

Example C36_case :
  let b1 := Single LEXICO [2;4] in let b2 := Single CB3D [2;4] in
  let F : field := fun q i => [N.of_nat i] in
  build_ok b1 /\ build_ok b2 /\ runs_on_one_node b2 /\ field_ok 4 1 b1 F /\ lexnum [2;4] [1;0] = lexnum_t [2;4] [0;1] /\
  match write_lattice LittleE 4 1 b1 F file_writer with
  | Val w => match read_lattice LittleE 4 1 b2 F (file_reader (s_data w)) with
             | Val (G, r) => field_at b2 G [0;1] = [1]%N /\ field_at b1 F [0;1] = [2]%N
             | _ => False
             end
  | _ => False
  end.
Proof.
  intros b1 b2 F. split; [apply adm1_case; reflexivity|]. split; [apply adm1_case; reflexivity|]. split; [exact I|]. split.
  - intros c Hc. apply in_lattice_2 in Hc as (x & y & -> & Hx & Hy). split; [reflexivity|].
    constructor; [|constructor]. destruct x as [|[|x]]; [| |lia]; (destruct y as [|[|[|[|y]]]]; [| | | |lia]); vm_compute; reflexivity.
  - vm_compute. repeat split.
Qed.

(** On several nodes with the time direction distributed, a run of sites crosses nodes: here the sites of the second
    node are neither written nor read, and the build does not even
    read back its own file. *)
Theorem C36_crossing_nodes_refuted :
  let b := Multi true CB3D (lex_machine [1;2]) [4;2] in
  let F : field := fun q i => [N.of_nat (4 * q + i)] in
  build_ok b /\
  match write_lattice LittleE 4 1 b F file_writer with
  | Val w => match read_lattice LittleE 4 1 b (fun _ _ => [99%N]) (file_reader (s_data w)) with
             | Val (G, r) => field_at b F [1;1] = [6]%N /\ field_at b G [1;1] = [99]%N
             | _ => False
             end
  | _ => False
  end.
Proof. intros b F. split; [apply admP_case; reflexivity|]. vm_compute. repeat split. Qed.
Print Assumptions C36_crossing_nodes_refuted.

(** C37.  Time slices: exactly the sites with that time, in lexicographic order. *)
Theorem C37_write_time_slice : forall e size nmemb b F t st,
  In size [1;2;4;8;16] -> build_ok b -> build_kind b <> CB3D ->
  (match b with Single _ _ => True | Multi _ _ _ L => 2 <= length L end) ->
  strip_room b (size * nmemb) -> field_ok size nmemb b F -> writable st -> t < last (build_size b) 0 ->
  exists st', write_time_slice e size nmemb b F (Z.of_nat t) st = Val st' /\
    wrote (sites_bytes size b F (filter (fun c => last c 0 =? t) (all_sites (build_size b)))) st st'.
Proof. exact write_time_slice_ok. Qed.
Print Assumptions C37_write_time_slice.

Theorem C37_read_time_slice : forall e size nmemb b F v t st,
  In size [1;2;4;8;16] -> build_ok b -> build_kind b <> CB3D ->
  (match b with Single _ _ => True | Multi _ _ _ L => 2 <= length L end) ->
  (forall c, in_lattice (build_size b) c -> site_ok size nmemb (v c)) -> t < last (build_size b) 0 ->
  let bytes := concat (map (fun c => site_bytes size (v c)) (filter (fun c => last c 0 =? t) (all_sites (build_size b)))) in
  readable bytes st ->
  exists G st', read_time_slice e size nmemb b F (Z.of_nat t) st = Val (G, st') /\
    (forall c, in_lattice (build_size b) c -> field_at b G c = if last c 0 =? t then v c else field_at b F c) /\
    was_read bytes st st'.
Proof. exact read_time_slice_ok. Qed.
Print Assumptions C37_read_time_slice.

(** Times outside the lattice are refused. *)
Theorem C37_invalid_time : forall e size nmemb b F t st,
  build_ok b -> (t < 0 \/ Z.of_nat (last (build_size b) 0%nat) <= t)%Z ->
  write_time_slice e size nmemb b F t st = Abort /\ read_time_slice e size nmemb b F t st = Abort.
Proof.
  intros e size nmemb b F t st HB Ht. unfold write_time_slice, read_time_slice.
  rewrite setTimeSlice_invalid; [split; reflexivity|exact Ht|]. now apply size_ok.
Qed.
Print Assumptions C37_invalid_time.

(** Subsets of a Set made with [colour]: exactly the sites of that colour, in lexicographic order. *)
Theorem C37_write_subset : forall e size nmemb b num colour colours color F st,
  In size [1;2;4;8;16] -> build_ok b -> build_kind b <> CB3D -> strip_room b (size * nmemb) ->
  field_ok size nmemb b F -> colouring b num colour colours -> writable st ->
  exists st', write_subset e size nmemb b colours color F st = Val st' /\
    wrote (sites_bytes size b F (filter (fun c => (colour c =? Z.of_nat color)%Z) (all_sites (build_size b)))) st st'.
Proof.
  intros e size nmemb b num colour colours color F st Hs HB HK HR HF HC HW.
  rewrite <- (file_order_lex (build_kind b)) by exact HK. eapply write_subset_ok; eauto. now left.
Qed.
Print Assumptions C37_write_subset.

Theorem C37_read_subset : forall e size nmemb b num colour colours color F v st,
  In size [1;2;4;8;16] -> build_ok b -> build_kind b <> CB3D -> colouring b num colour colours ->
  (forall c, in_lattice (build_size b) c -> site_ok size nmemb (v c)) ->
  let bytes := concat (map (fun c => site_bytes size (v c))
                 (filter (fun c => (colour c =? Z.of_nat color)%Z) (all_sites (build_size b)))) in
  readable bytes st ->
  exists G st', read_subset e size nmemb b colours color F st = Val (G, st') /\
    (forall c, in_lattice (build_size b) c ->
       field_at b G c = if (colour c =? Z.of_nat color)%Z then v c else field_at b F c) /\
    was_read bytes st st'.
Proof.
  intros e size nmemb b num colour colours color F v st Hs HB HK HC HV. cbv zeta.
  rewrite <- (file_order_lex (build_kind b)) by exact HK. intros HR. eapply read_subset_ok; eauto. now left.
Qed.
Print Assumptions C37_read_subset.

(** Single sites. *)
Theorem C37_write_site : forall e size nmemb b F c st,
  In size [1;2;4;8;16] -> site_room b (size * nmemb) -> site_ok size nmemb (field_at b F c) -> writable st ->
  exists st', write_site e size nmemb b F c st = Val st' /\ wrote (site_bytes size (field_at b F c)) st st'.
Proof. exact write_site_ok. Qed.
Print Assumptions C37_write_site.

Theorem C37_read_site : forall e size nmemb b F c w st,
  In size [1;2;4;8;16] -> build_ok b -> in_lattice (build_size b) c -> site_ok size nmemb w ->
  readable (site_bytes size w) st ->
  exists G st', read_site e size nmemb b F c st = Val (G, st') /\
    (forall d, in_lattice (build_size b) d -> field_at b G d = if list_eq_dec Nat.eq_dec d c then w else field_at b F d) /\
    was_read (site_bytes size w) st st'.
Proof. exact read_site_ok. Qed.
Print Assumptions C37_read_site.

Definition demo_colours (b : build) (q : nat) : list nat :=
  match lat_color (lay_of b) q SetRBFunc with Val l => l | _ => [] end.
Example C37_case :
  let b := Multi false LEXICO (lex_machine [1;2]) [4;4] in let b2 := Single LEXICO [4;4] in
  build_ok b /\ strip_room b 2 /\ field_ok 1 2 b demo_field /\
  match write_time_slice LittleE 1 2 b demo_field 3 file_writer with
  | Val w => s_data w = [20;251;21;250;22;249;23;248]%N /\
      match read_time_slice BigE 1 2 b2 (fun _ _ => [7;7]%N) 3 (file_reader (s_data w)) with
      | Val (G, _) => field_at b2 G [2;3] = [22;249]%N /\ field_at b2 G [2;2] = [7;7]%N
      | _ => False
      end
  | _ => False
  end /\
  match write_subset LittleE 1 2 b (demo_colours b) 1 demo_field file_writer with
  | Val w => firstn 8 (s_data w) = [1;254;3;252;4;251;6;249]%N
  | _ => False
  end /\
  (forall q, q < l_nodes (lay_of b) -> lat_color (lay_of b) q SetRBFunc = Val (demo_colours b q)).
Proof.
  intros b b2. assert (B1 : build_ok b) by (apply admP_case; reflexivity).
  split; [exact B1|]. split; [right; cbn; lia|].
  split; [apply demo_ok; [exact B1|vm_compute; lia|vm_compute; lia]|]. split; [vm_compute; repeat split|].
  split; [vm_compute; reflexivity|]. intros q Hq. change (l_nodes (lay_of b)) with 2 in Hq.
  destruct q as [|[|q]]; [vm_compute; reflexivity|vm_compute; reflexivity|lia].
Qed.

(** In a 3-d checkerboard build a time slice is not what is written: slice 0 of a 4x3 lattice is one site, and the last
    slice is nearly the whole lattice. *)
Theorem C37_time_slice_3d_refuted :
  let b := Single CB3D [4;3] in let F : field := fun q i => [N.of_nat i] in
  build_ok b /\
  match write_time_slice LittleE 1 1 b F 0 file_writer, write_time_slice LittleE 1 1 b F 2 file_writer with
  | Val w0, Val w2 => length (s_data w0) = 1 /\ length (s_data w2) = 10
  | _, _ => False
  end.
Proof. intros b F. split; [apply adm1_case; reflexivity|]. vm_compute. repeat split. Qed.
Print Assumptions C37_time_slice_3d_refuted.

(** C38.  peekSite gives every node the value at the site; pokeSite changes that site only. *)
Theorem C38_peek : forall b zero F c q, peekSite b zero F c q = field_at b F c.
Proof. exact peek_ok. Qed.
Print Assumptions C38_peek.

Theorem C38_peek_poke : forall b zero F r x c d q,
  build_ok b -> in_lattice (build_size b) c -> in_lattice (build_size b) d -> (forall n, r n = x) ->
  peekSite b zero (pokeSite b F r c) d q = if list_eq_dec Nat.eq_dec d c then x else peekSite b zero F d q.
Proof.
  intros b zero F r x c d q HB Hc Hd Hr. rewrite !peek_ok, poke_ok by assumption. now rewrite Hr.
Qed.
Print Assumptions C38_peek_poke.

Example C38_case :
  let b := Multi false CB2 (lex_machine [2;2]) [8;4] in
  build_ok b /\ in_lattice (build_size b) [5;3] /\
  l_node (lay_of b) [5;3] = 3 /\
  peekSite b [0]%N (pokeSite b demo_field (fun _ => [7]%N) [5;3]) [5;3] 1 = [7]%N /\
  peekSite b [0]%N (pokeSite b demo_field (fun _ => [7]%N) [5;3]) [5;2] 1 = field_at b demo_field [5;2].
Proof. intros b. split; [apply admP_case; reflexivity|]. split; [repeat constructor; cbn; lia|]. vm_compute. repeat split. Qed.

(** C62 is false: writing a single site of fewer than four bytes (a LatticeBoolean) from a node other than
    the first overruns the buffer on machines that are not grids.  (C37_write_site is the positive half.) *)
Theorem C62_small_site_refuted : forall e size nmemb k M L F c st,
  size * nmemb < 4 -> nodeNumberP M L c <> 0 -> write_site e size nmemb (Multi false k M L) F c st = Undef.
Proof. exact write_site_overrun. Qed.
Print Assumptions C62_small_site_refuted.

Example C62_case :
  let M := lex_machine [2;2] in
  build_ok (Multi false LEXICO M [4;2]) /\ nodeNumberP M [4;2] [3;1] <> 0 /\
  write_lattice LittleE 1 1 (Multi false LEXICO M [4;2]) (fun _ _ => [1%N]) file_writer = Undef /\
  match write_lattice LittleE 1 1 (Multi true LEXICO M [4;2]) (fun _ _ => [1%N]) file_writer with
  | Val w => s_data w = repeat 1%N 8
  | _ => False
  end.
Proof. intros M. split; [apply admP_case; reflexivity|]. vm_compute. repeat split; discriminate. Qed.

(** C63.  QDP_extract stores the values of the sites of a subset at their site numbers in an array
    long enough, QDP_insert stores them back; an array that is too short is overrun. *)
Theorem C63_extract : forall tab src dest, (forall i, In i tab -> i < length dest) ->
  exists d, QDP_extract tab src dest = Val d /\ length d = length dest /\
    forall i, nth_error d i = if in_dec Nat.eq_dec i tab then Some (src i) else nth_error dest i.
Proof. exact extract_ok. Qed.
Print Assumptions C63_extract.

Theorem C63_insert_extract : forall tab src dest0 dest, (forall i, In i tab -> i < length dest0) ->
  exists a d, QDP_extract tab src dest0 = Val a /\ QDP_insert tab a dest = Val d /\
    forall i, d i = if in_dec Nat.eq_dec i tab then src i else dest i.
Proof.
  intros tab src dest0 dest H. destruct (extract_ok tab src dest0 H) as (a & E & L & N).
  destruct (insert_ok tab a dest) as (d & E2 & D); [now rewrite L|]. exists a, d. split; [exact E|]. split; [exact E2|].
  intros i. specialize (D i). specialize (N i). destruct (in_dec Nat.eq_dec i tab); [rewrite N in D|]; congruence.
Qed.
Print Assumptions C63_insert_extract.

Theorem C63_compact_array_refuted : forall tab src dest, (exists i, In i tab /\ length dest <= i) ->
  QDP_extract tab src dest = Undef.
Proof. exact extract_outside. Qed.
Print Assumptions C63_compact_array_refuted.

Example C63_case :
  QDP_extract [1;3] (fun i => [N.of_nat i]) (repeat [] 4) = Val [[]; [1%N]; []; [3%N]] /\
  QDP_extract [1;3] (fun i => [N.of_nat i]) (repeat [] 2) = Undef.
Proof. repeat split. Qed.

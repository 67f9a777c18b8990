(** Property C83: lattices and scalars written to QIO files and read back. *)
From Coq Require Import List Arith NArith Bool Lia.
From Verif Require Import Base LayoutModel LayoutSpec LayoutProofs LayoutOk CrcModel SwapProofs IoModel IoSpec IoProofs LatIoModel LatIoSpec LatIoProofs LatIoOk
  PropLatIo LayoutCases IoNodeProofs QioModel QioSpec QioProofs QioMore.
Import ListNotations.
Local Open Scope nat_scope.

Lemma conv_carried widen narrow w1 w2 v : carried widen narrow w1 w2 v (conv_elem widen narrow w1 w2 v).
Proof.
  unfold carried, conv_elem. split; [|split].
  - intros ->. destruct w2; apply map_id.
  - intros -> ->. reflexivity.
  - intros -> ->. reflexivity.
Qed.
Lemma array_bytes_eq size b Fs cs :
  concat (map (fun c => site_bytes size (concat (site_values b Fs c))) cs) = array_bytes size b Fs cs.
Proof.
  unfold array_bytes. f_equal. apply map_ext. intros c. unfold site_values, site_bytes.
  induction Fs as [|F Fs IH]; [reflexivity|]. cbn [map concat]. rewrite map_app, concat_app. now rewrite IH.
Qed.

(** C83.  A lattice written by one build and read by another, on machines of any byte order and with another floating point
    precision if wanted, has the same value at every site.  The file holds the sites in lexicographic order, most significant
    byte first. *)
Theorem C83_lattice : forall e1 e2 widen narrow b1 b2 t1 t2 F G0,
  build_ok b1 -> build_ok b2 -> build_size b1 = build_size b2 -> ty_ok t1 -> same_shape t1 t2 ->
  compatible (t_word t1) (t_word t2) -> holds t1 b1 F ->
  exists r G, write_lattice e1 b1 t1 F = Val (Some r) /\
    r_bytes r = sites_bytes (wsize (t_word t1)) b1 F (all_sites (build_size b1)) /\
    read_lattice e2 widen narrow b2 t2 r G0 = Val G /\
    forall c, in_lattice (build_size b2) c ->
      carried widen narrow (t_word t1) (t_word t2) (field_at b1 F c) (field_at b2 G c).
Proof.
  intros e1 e2 widen narrow b1 b2 t1 t2 F G0 Hb1 Hb2 Hs Ht Hsh Hc HF.
  exists (field_record b1 Field t1 F).
  destruct (read_sites_ok e2 widen narrow b1 b2 Field t1 t2 F G0 Hb1 Hb2 Hs Ht Hsh Hc HF) as (G & E & V); [discriminate|].
  exists G. split; [apply (write_sites_ok e1 b1 Field); auto; discriminate|]. split; [reflexivity|]. split; [exact E|].
  intros c Hin. destruct (V c Hin) as [A _]. rewrite A; [apply conv_carried|]. cbn [record_sites]. rewrite Hs. now apply all_sites_in.
Qed.
Print Assumptions C83_lattice.

(** A hypercube of a lattice: the sites of the cube are read back.  The other sites become zero if the record is of floating point
    numbers and keep their old value if it is not. *)
Theorem C83_hypercube : forall e1 e2 widen narrow b1 b2 t1 t2 F G0 lower upper,
  build_ok b1 -> build_ok b2 -> build_size b1 = build_size b2 -> ty_ok t1 -> same_shape t1 t2 ->
  compatible (t_word t1) (t_word t2) -> holds t1 b1 F ->
  length lower = length (build_size b1) -> length upper = length (build_size b1) ->
  exists r G, write_hyper e1 b1 t1 F lower upper = Val (Some r) /\
    read_lattice e2 widen narrow b2 t2 r G0 = Val G /\
    forall c, in_lattice (build_size b2) c ->
      (in_cube lower upper c -> carried widen narrow (t_word t1) (t_word t2) (field_at b1 F c) (field_at b2 G c)) /\
      (~ in_cube lower upper c ->
         (floating (t_word t1) -> carried widen narrow (t_word t1) (t_word t2) (repeat 0%N (t_nmemb t2)) (field_at b2 G c)) /\
         (~ floating (t_word t1) -> field_at b2 G c = field_at b2 G0 c)).
Proof.
  intros e1 e2 widen narrow b1 b2 t1 t2 F G0 lower upper Hb1 Hb2 Hs Ht Hsh Hc HF Hlo Hup.
  exists (field_record b1 (Hyper lower upper) t1 F).
  destruct (read_sites_ok e2 widen narrow b1 b2 (Hyper lower upper) t1 t2 F G0 Hb1 Hb2 Hs Ht Hsh Hc HF) as (G & E & V); [discriminate|].
  exists G. split.
  { unfold write_hyper. rewrite Hlo, Hup, Nat.eqb_refl. cbn [negb]. apply (write_sites_ok e1 b1 (Hyper lower upper)); auto. discriminate. }
  split; [exact E|]. intros c Hin. destruct (V c Hin) as [A B].
  assert (Iff : In c (record_sites (build_size b1) (Hyper lower upper)) <-> in_cube lower upper c).
  { cbn [record_sites]. rewrite filter_In. rewrite Hs at 1. rewrite all_sites_in.
    pose proof (in_lattice_length _ _ Hin) as Lc. rewrite in_box_cube by congruence. tauto. }
  rewrite Iff in A, B. split.
  - intros X. rewrite (A X). apply conv_carried.
  - intros X. destruct (B X) as [B1 B2]. split; [intros Y; rewrite (B1 Y); apply conv_carried|exact B2].
Qed.
Print Assumptions C83_hypercube.
Theorem C83_corners : forall e b t F lower upper, length lower <> length upper -> write_hyper e b t F lower upper = Abort.
Proof. intros. unfold write_hyper. destruct (Nat.eqb_spec (length lower) (length upper)); [contradiction|reflexivity]. Qed.
Print Assumptions C83_corners.

(** An array of lattices read into an array of the same length. *)
Theorem C83_array : forall e1 e2 widen narrow b1 b2 t1 t2 Fs Gs d,
  build_ok b1 -> build_ok b2 -> build_size b1 = build_size b2 -> ty_ok t1 -> same_shape t1 t2 ->
  compatible (t_word t1) (t_word t2) -> (forall F, In F Fs -> holds t1 b1 F) -> length Gs = length Fs ->
  exists r Hs, write_lattices e1 b1 t1 Fs = Val (Some r) /\
    r_bytes r = array_bytes (wsize (t_word t1)) b1 Fs (all_sites (build_size b1)) /\
    read_lattices e2 widen narrow b2 t2 r Gs = Val Hs /\ length Hs = length Fs /\
    forall i c, i < length Fs -> in_lattice (build_size b2) c ->
      carried widen narrow (t_word t1) (t_word t2) (field_at b1 (nth i Fs d) c) (field_at b2 (nth i Hs d) c).
Proof.
  intros e1 e2 widen narrow b1 b2 t1 t2 Fs Gs d Hb1 Hb2 Hs Ht Hsh Hc HF Hl.
  destruct (read_lattices_ok e2 widen narrow b1 b2 t1 t2 Fs Gs d Hb1 Hb2 Hs Ht Hsh Hc HF Hl) as (H' & E & L & V).
  exists (array_record b1 t1 Fs), H'. split; [now apply write_lattices_ok|].
  split; [cbn [array_record r_bytes]; apply array_bytes_eq|]. split; [exact E|]. split; [exact L|].
  intros i c Hi Hin. rewrite V by auto. apply conv_carried.
Qed.
Print Assumptions C83_array.

(** Scalars: every node gets the values node 0 wrote. *)
Theorem C83_scalars : forall e1 e2 widen narrow b1 b2 t1 t2 n F junk G0,
  ty_ok t1 -> same_shape t1 t2 -> compatible (t_word t1) (t_word t2) -> scalars_ok t1 n F ->
  exists r G, write_scalars e1 b1 t1 n F = Val (Some r) /\
    r_bytes r = concat (map (fun i => site_bytes (wsize (t_word t1)) (F 0 i)) (seq 0 n)) /\
    read_scalars e2 widen narrow b2 t2 n r junk G0 = Val G /\
    forall q i, q < l_nodes (lay_of b2) -> i < n -> carried widen narrow (t_word t1) (t_word t2) (F 0 i) (G q i).
Proof.
  intros e1 e2 widen narrow b1 b2 t1 t2 n F junk G0 Ht Hsh Hc HF.
  destruct (read_scalars_ok e2 widen narrow b1 b2 t1 t2 n F junk G0 Ht Hsh Hc HF) as (G & E & V).
  exists (scalar_record b1 t1 n F), G. split; [now apply write_scalars_ok|]. split.
  { cbn [scalar_record r_bytes]. unfold scalar_words, site_bytes. induction (seq 0 n) as [|i l IH]; [reflexivity|].
    cbn [map concat]. now rewrite map_app, concat_app, IH. }
  split; [exact E|]. intros q i Hq Hi. rewrite V by auto. apply conv_carried.
Qed.
Print Assumptions C83_scalars.
Theorem C83_one_scalar : forall e b t F, write_scalar e b t F = write_scalars e b t 1 F.
Proof. intros. apply write_scalar_one. Qed.
Print Assumptions C83_one_scalar.

(** Byte buffers. *)
Theorem C83_buffer : forall e1 e2 b1 b2 bufs, Forall (fun v => (v < 256)%N) (bufs 0) ->
  exists r out, write_buffer e1 b1 bufs = Val (Some r) /\ r_bytes r = bufs 0 /\ read_buffer e2 b2 r = Val out /\
    forall q, q < l_nodes (lay_of b2) -> out q = bufs 0.
Proof. intros. now apply buffer_ok. Qed.
Print Assumptions C83_buffer.

(** A record of another number of bytes per site, or of another lattice, is refused, whatever is in it. *)
Theorem C83_size : forall e widen narrow b t r G0,
  (forall w, wsize (t_word t) = wsize w \/ floating w -> r_typesize r * r_count r <> t_nmemb t * wsize w) ->
  read_lattice e widen narrow b t r G0 = Abort.
Proof.
  intros e widen narrow b t r G0 H. unfold read_lattice.
  destruct (r_prec r); try (rewrite qio_read_size; [reflexivity|]); unfold sizeof, with_word; cbn [t_nmemb t_word]; apply H; auto;
    unfold floating; destruct (t_word t); cbn; auto.
Qed.
Print Assumptions C83_size.
Theorem C83_other_lattice : forall e widen narrow b t r G0, r_type r <> Global -> r_latsize r <> build_size b ->
  read_lattice e widen narrow b t r G0 = Abort.
Proof.
  intros e widen narrow b t r G0 Hg Hl.
  assert (A : forall (put : nat -> nat -> nat -> list N -> field -> res field) d ws s, qio_read e (lay_of b) r put d ws s = Abort).
  { intros. unfold qio_read. destruct (negb _); [reflexivity|]. change (l_size (lay_of b)) with (build_size b).
    destruct (list_eq_dec Nat.eq_dec (r_latsize r) (build_size b)); [contradiction|]. destruct (r_type r); congruence. }
  unfold read_lattice. cbv zeta. destruct (r_prec r); rewrite A; reflexivity.
Qed.
Print Assumptions C83_other_lattice.
(** A record of scalars that is shorter than it says is refused. *)
Theorem C83_short : forall e widen narrow b t r G0, r_type r = Global -> length (r_bytes r) < r_typesize r * r_count r ->
  read_lattice e widen narrow b t r G0 = Abort.
Proof.
  intros e widen narrow b t r G0 Hg Hl.
  assert (A : forall (put : nat -> nat -> nat -> list N -> field -> res field) d ws s, qio_read e (lay_of b) r put d ws s = Abort).
  { intros. unfold qio_read. destruct (Nat.eqb_spec (r_typesize r * r_count r) d) as [E|E]; [|reflexivity]. cbn [negb].
    rewrite Hg. destruct (Nat.ltb_spec (length (r_bytes r)) d); [reflexivity|lia]. }
  unfold read_lattice. cbv zeta. destruct (r_prec r); rewrite A; reflexivity.
Qed.
Print Assumptions C83_short.

(** Arrays of another length are refused. *)
Theorem C83_array_length : forall e1 e2 widen narrow b1 b2 t1 t2 Fs Gs r,
  build_ok b1 -> ty_ok t1 -> 0 < t_nmemb t1 -> same_shape t1 t2 -> compatible (t_word t1) (t_word t2) ->
  (forall F, In F Fs -> holds t1 b1 F) -> length Gs <> length Fs ->
  write_lattices e1 b1 t1 Fs = Val (Some r) -> read_lattices e2 widen narrow b2 t2 r Gs = Abort.
Proof.
  intros e1 e2 widen narrow b1 b2 t1 t2 Fs Gs r Hb1 Ht Hm Hsh Hc HF Hl E. rewrite write_lattices_ok in E by auto.
  injection E as <-. pose proof (compatible_back _ _ Hc) as Hback.
  assert (P : 0 < sizeof t1) by (unfold sizeof; now apply Nat.mul_pos_pos).
  assert (Q : forall w, w = t_word t1 -> sizeof t1 * length Fs <> length Gs * sizeof (with_word t2 w)).
  { intros w ->. replace (sizeof (with_word t2 (t_word t1))) with (sizeof t1) by (unfold sizeof, with_word; cbn; now rewrite Hsh).
    rewrite Nat.mul_comm. intros X. apply Nat.mul_cancel_r in X; [|lia]. congruence. }
  unfold read_lattices. cbv zeta. cbn [array_record r_prec].
  destruct (t_word t1) eqn:E1; cbn [tprec cast_back] in *.
  - rewrite qio_read_size; [reflexivity|]. cbn [array_record r_typesize r_count]. apply Q. exact Hback.
  - rewrite qio_read_size; [reflexivity|]. cbn [array_record r_typesize r_count]. apply Q. exact Hback.
  - rewrite qio_read_size; [reflexivity|]. cbn [array_record r_typesize r_count].
    specialize (Q (t_word t2) Hback). now destruct t2.
  - rewrite qio_read_size; [reflexivity|]. cbn [array_record r_typesize r_count].
    specialize (Q (t_word t2) Hback). now destruct t2.
Qed.
Print Assumptions C83_array_length.

(** FALSE: the kind of word is not compared.  Integers read as floating point numbers, and the reverse, are taken bit by bit
    without complaint. *)
Theorem C83_kinds_refuted : forall e1 e2 widen narrow b1 b2 nmemb w1 w2 F G0 co sp co' sp',
  build_ok b1 -> build_ok b2 -> build_size b1 = build_size b2 ->
  (w1 = Int /\ w2 = Float) \/ (w1 = Float /\ w2 = Int) -> holds (mkTy w1 nmemb co sp) b1 F ->
  exists r G, write_lattice e1 b1 (mkTy w1 nmemb co sp) F = Val (Some r) /\
    read_lattice e2 widen narrow b2 (mkTy w2 nmemb co' sp') r G0 = Val G /\
    forall c, in_lattice (build_size b2) c -> field_at b2 G c = field_at b1 F c.
Proof.
  intros e1 e2 widen narrow b1 b2 nmemb w1 w2 F G0 co sp co' sp' Hb1 Hb2 Hs Hw HF. set (t1 := mkTy w1 nmemb co sp) in *.
  assert (Ht : ty_ok t1) by (unfold ty_ok, t1; cbn; destruct Hw as [[-> _]|[-> _]]; cbn; lia).
  destruct (read_sites_gen e2 widen narrow b1 b2 Field t1 (mkTy w2 nmemb co' sp') F G0 Hb1 Hb2 Hs Ht) as (G & E & V); auto;
    [reflexivity|unfold t1; cbn; destruct Hw as [[-> ->]|[-> ->]]; reflexivity|discriminate|].
  exists (field_record b1 Field t1 F), G. split; [apply (write_sites_ok e1 b1 Field); auto; discriminate|]. split; [exact E|].
  intros c Hin. destruct (V c Hin) as [A _]. rewrite A by (cbn [record_sites]; rewrite Hs; now apply all_sites_in).
  unfold conv_elem. rewrite <- (map_id (field_at b1 F c)) at 2. apply map_ext. intros a. unfold t1. cbn.
  destruct Hw as [[-> ->]|[-> ->]]; reflexivity.
Qed.
Print Assumptions C83_kinds_refuted.

(** FALSE: an array of n > 1 lattices read into one lattice whose sites have as many bytes as the n sites together is not
    refused, but copied out of bounds. *)
Theorem C83_array_as_lattice_refuted : forall e1 e2 widen narrow b1 b2 t1 t2 Fs G0 r,
  build_ok b1 -> build_ok b2 -> build_size b1 = build_size b2 -> ty_ok t1 -> 0 < t_nmemb t1 ->
  (forall F, In F Fs -> holds t1 b1 F) -> 2 <= length Fs -> t_word t2 = t_word t1 -> t_nmemb t2 = length Fs * t_nmemb t1 ->
  write_lattices e1 b1 t1 Fs = Val (Some r) -> read_lattice e2 widen narrow b2 t2 r G0 = Undef.
Proof.
  intros e1 e2 widen narrow b1 b2 t1 t2 Fs G0 r Hb1 Hb2 Hs Ht Hm HF Hn Hw Hl E. rewrite write_lattices_ok in E by auto. injection E as <-.
  apply array_into_site; auto. rewrite compatible_back by (left; congruence). unfold sizeof, with_word. cbn. rewrite Hl. lia.
Qed.
Print Assumptions C83_array_as_lattice_refuted.

(** Two builds, byte orders and precisions; an array; a hypercube of integers and of floating point numbers. *)
Example C83_case :
  let b1 := Multi false CB2 (lex_machine [2;2]) [8;4] in let b2 := Single LEXICO [8;4] in
  let t1 := mkTy Float 2 0 0 in let t2 := mkTy Double 2 0 0 in let ti := mkTy Int 2 0 0 in
  let w := (fun v => v * 2 ^ 32)%N in
  build_ok b1 /\ build_ok b2 /\ holds t1 b1 demo_field /\ holds ti b1 demo_field /\ compatible (t_word t1) (t_word t2) /\
  match write_lattice LittleE b1 t1 demo_field with
  | Val (Some r) => firstn 16 (r_bytes r) = [0;0;0;0; 0;0;0;255; 0;0;0;4; 0;0;0;251]%N /\
      match read_lattice BigE w (fun v => v) b2 t2 r (fun _ _ => []) with
      | Val G => field_at b2 G [5;3] = map w (field_at b1 demo_field [5;3]) /\ field_at b1 demo_field [5;3] <> [0;0]%N
      | _ => False
      end
  | _ => False
  end /\
  match write_hyper LittleE b1 ti demo_field [2;1] [4;2], write_hyper LittleE b1 t1 demo_field [2;1] [4;2] with
  | Val (Some ri), Val (Some rf) => length (r_bytes ri) = 48 /\
      match read_lattice LittleE w w b2 ti ri (fun _ _ => [7;7]%N), read_lattice LittleE w w b2 t1 rf (fun _ _ => [7;7]%N) with
      | Val Gi, Val Gf => field_at b2 Gi [3;2] = field_at b1 demo_field [3;2] /\ field_at b2 Gf [3;2] = field_at b1 demo_field [3;2] /\
          field_at b2 Gi [5;2] = [7;7]%N /\ field_at b2 Gf [5;2] = [0;0]%N
      | _, _ => False
      end
  | _, _ => False
  end /\
  match write_lattices LittleE b1 (mkTy Float 2 0 0) [demo_field; demo_field] with
  | Val (Some r) => read_lattice LittleE w w b2 (mkTy Float 4 0 0) r (fun _ _ => []) = Undef /\
      match read_lattices LittleE w w b2 (mkTy Float 2 0 0) r [fun _ _ => []; fun _ _ => []] with
      | Val [G1; G2] => field_at b2 G2 [5;3] = field_at b1 demo_field [5;3]
      | _ => False
      end
  | _ => False
  end.
Proof.
  intros b1 b2 t1 t2 ti w. assert (B1 : build_ok b1) by (apply admP_case; reflexivity).
  split; [exact B1|]. split; [apply adm1_case; reflexivity|].
  assert (H1 : holds t1 b1 demo_field).
  { intros c Hc. assert (X : field_ok 1 2 b1 demo_field) by (apply demo_ok; [exact B1|vm_compute; lia|vm_compute; lia]).
    destruct (X c Hc) as [L FA]. split; [exact L|]. eapply Forall_impl; [|exact FA]. cbn beta. intros a Ha.
    eapply N.lt_le_trans; [exact Ha|]. vm_compute. discriminate. }
  split; [exact H1|]. split; [exact H1|]. split; [right; split; [left|right]; reflexivity|].
  split; [vm_compute; repeat split; discriminate|]. split; [vm_compute; repeat split|]. vm_compute. split; reflexivity.
Qed.

(** Scalars and a buffer, read on four nodes. *)
Example C83_scalars_case :
  let b1 := Single LEXICO [8;4] in let b2 := Multi false CB2 (lex_machine [2;2]) [8;4] in
  let t := mkTy Double 1 0 0 in let F : field := fun q i => [N.of_nat (100 * q + i)] in
  scalars_ok t 3 F /\
  match write_scalars LittleE b1 t 3 F with
  | Val (Some r) => match read_scalars BigE (fun v => v) (fun v => v) b2 t 3 r (fun _ _ => [9]%N) (fun _ _ => [9]%N) with
                    | Val G => map (fun q => map (G q) (seq 0 3)) (seq 0 4) = repeat [[0];[1];[2]]%N 4
                    | _ => False
                    end
  | _ => False
  end /\
  match write_buffer LittleE b1 (fun q => [N.of_nat q; 65; 66]%N) with
  | Val (Some r) => match read_buffer LittleE b2 r with Val o => map o (seq 0 4) = repeat [0;65;66]%N 4 | _ => False end
  | _ => False
  end.
Proof.
  intros b1 b2 t F. split.
  { intros i Hi. split; [reflexivity|]. constructor; [|constructor]. unfold F. cbn. destruct i as [|[|[|i]]]; [| | |lia]; reflexivity. }
  split; vm_compute; reflexivity.
Qed.

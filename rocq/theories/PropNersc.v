(** C43-C45: gauge archives. *)
From Coq Require Import String List Arith NArith ZArith Bool Ascii Lia Ring_theory Permutation.
From Verif Require Import Base LayoutModel LayoutSpec LayoutProofs LayoutOk LayoutCases SetModel MapProofs CrcModel CrcSpec IoModel IoSpec IoProofs
  LatIoModel LatIoSpec LatIoProofs LatIoOk NerscModel NerscSpec NerscProofs NerscAlgebra NerscHeader NerscHeaderSpec NerscText NerscHeaderOk NerscArchive NerscItems NerscForeign.
Import ListNotations.
Local Open Scope nat_scope.

(** C43.  A unitary matrix is rebuilt from the twelve numbers of its first two rows exactly when its
    determinant is one; over every commutative ring. *)
Theorem C43_reconstruct : forall A (rO rI : A) radd rmul rsub ropp (R : ring_theory rO rI radd rmul rsub ropp eq) (U : @cmatrix A),
  unitary rO rI radd rmul rsub ropp U ->
  exists V, unpack rO radd rmul rsub 12 (numbers 2 U) = Val V /\
    ((forall i j, i < 3 -> j < 3 -> V i j = U i j) <-> det radd rmul rsub U = one rO rI).
Proof. intros A rO rI radd rmul rsub ropp R U. now apply reconstruct. Qed.
Print Assumptions C43_reconstruct.

(** Of any twelve numbers the first two rows are kept and the third is the conjugate of their cross product. *)
Theorem C43_third_row : forall A (rO rI : A) radd rmul rsub ropp (R : ring_theory rO rI radd rmul rsub ropp eq) l,
  length l = 12 ->
  exists V, unpack rO radd rmul rsub 12 l = Val V /\ numbers 2 V = l /\
    forall j, j < 3 -> V 2 j = bar ropp (cross_product radd rmul rsub (V 0) (V 1) j).
Proof.
  intros A rO rI radd rmul rsub ropp R l H. exists (matrix_of rO radd rmul rsub 12 l).
  assert (M : mat_ok 12) by now left. split; [now apply unpack_val|]. split; [now apply (matrix_of_numbers rO radd rmul rsub 12)|].
  intros j Hj. now apply (matrix_third rO rI radd rmul rsub ropp R).
Qed.
Print Assumptions C43_third_row.

(** Three rows are kept as they are. *)
Theorem C43_three_rows : forall A (rO : A) radd rmul rsub (U : @cmatrix A),
  exists V, unpack rO radd rmul rsub 18 (numbers 3 U) = Val V /\ forall i j, i < 3 -> j < 3 -> V i j = U i j.
Proof.
  intros. eexists. split; [reflexivity|].
  intros i j Hi Hj. destruct i as [|[|[|i]]]; try lia; destruct j as [|[|[|j]]]; try lia; cbn; now destruct (U _ _).
Qed.
Print Assumptions C43_three_rows.

(** The matrix with rows (0,i,0), (0,0,i), (-1,0,0), and the same with the last row changed in sign. *)
Definition su3_case : @cmatrix Z := fun i j =>
  match i, j with 0, 1 => (0%Z, 1%Z) | 1, 2 => (0%Z, 1%Z) | 2, 0 => ((-1)%Z, 0%Z) | _, _ => (0%Z, 0%Z) end.
Definition u3_case : @cmatrix Z := fun i j => let '(x, y) := su3_case i j in if i =? 2 then (- x, - y)%Z else (x, y).
Ltac each i H := destruct i as [|[|[|i]]]; [| | |exfalso; clear - H; lia].
Example C43_case : let un := unitary 0%Z 1%Z Z.add Z.mul Z.sub Z.opp in
  un su3_case /\ det Z.add Z.mul Z.sub su3_case = one 0%Z 1%Z /\ un u3_case /\ det Z.add Z.mul Z.sub u3_case <> one 0%Z 1%Z /\
  match unpack 0%Z Z.add Z.mul Z.sub 12 (numbers 2 u3_case) with Val V => V 2 0 = ((-1)%Z, 0%Z) | _ => False end.
Proof.
  split; [|split; [|split; [|split]]]; try reflexivity; try discriminate.
  - intros i j Hi Hj. each i Hi; each j Hj; reflexivity.
  - intros i j Hi Hj. each i Hi; each j Hj; reflexivity.
Qed.

(** C44.  The checksum is the sum, modulo 2^32, of all the words of the file: of the twelve or eighteen numbers of every
    link, each as a 32-bit word. *)
Theorem C44_checksum : forall A (narrow : A -> N) Nd b mat_size u, build_ok b -> mat_size = 12 \/ mat_size = 18 ->
  computeChecksum narrow Nd b mat_size u
  = Val (sum_of (all_words b Nd (fun dd c => map narrow (numbers (rows_of mat_size) (link_at b u dd c))))).
Proof.
  intros A narrow Nd b mat_size u HB HM. set (x := fst (u 0 0 0 0 0)).
  exact (checksum_ok x (fun x _ => x) (fun x _ => x) (fun x _ => x) narrow (fun _ _ => x) Nd b mat_size u HB HM).
Qed.
Print Assumptions C44_checksum.

(** It does not depend on the layout, the node grid or the order of the sites. *)
Theorem C44_checksum_everywhere : forall A (narrow : A -> N) Nd b1 b2 mat_size u1 u2,
  build_ok b1 -> build_ok b2 -> build_size b1 = build_size b2 -> mat_size = 12 \/ mat_size = 18 ->
  (forall dd c, dd < Nd -> in_lattice (build_size b1) c -> link_at b1 u1 dd c = link_at b2 u2 dd c) ->
  computeChecksum narrow Nd b1 mat_size u1 = computeChecksum narrow Nd b2 mat_size u2.
Proof.
  intros A narrow Nd b1 b2 mat_size u1 u2 H1 H2 ES HM HU. rewrite !C44_checksum by assumption. f_equal. unfold sum_of. f_equal.
  assert (P : Permutation (site_order b1) (site_order b2)).
  { eapply perm_trans; [apply Permutation_sym, order_perm, H1|]. rewrite ES. now apply order_perm. }
  assert (Q : Permutation (all_words b1 Nd (fun dd c => map narrow (numbers (rows_of mat_size) (link_at b1 u1 dd c))))
                          (all_words b2 Nd (fun dd c => map narrow (numbers (rows_of mat_size) (link_at b2 u2 dd c))))).
  { unfold all_words. etransitivity; [apply Permutation_flat_map, P|]. rewrite (flat_map_ext_in _ (fun c => flat_map (fun dd => map narrow (numbers (rows_of mat_size) (link_at b2 u2 dd c))) (seq 0 Nd))); [reflexivity|].
    intros c Hc. apply flat_map_ext_in. intros dd Hd. rewrite HU; [reflexivity|apply in_seq in Hd; lia|].
    rewrite ES. now apply order_in. }
  revert Q. generalize (all_words b1 Nd (fun dd c => map narrow (numbers (rows_of mat_size) (link_at b1 u1 dd c)))).
  intros l Q. induction Q; cbn [fold_right]; lia.
Qed.
Print Assumptions C44_checksum_everywhere.

(** The data of an archive: the words, high byte first, site after site, for every site the directions in turn. *)
Theorem C44_written : forall A (narrow : A -> N) e Nd b mat_size u st, build_ok b -> mat_size = 12 \/ mat_size = 18 ->
  (forall x, (narrow x < 2 ^ 32)%N) -> writable st ->
  exists st', write_payload narrow e Nd b mat_size u st = Val st' /\
    wrote (site_bytes 4 (all_words b Nd (fun dd c => map narrow (numbers (rows_of mat_size) (link_at b u dd c))))) st st'.
Proof.
  intros A narrow e Nd b mat_size u st HB HM HN HW. set (x := fst (u 0 0 0 0 0)). eexists. split.
  - exact (write_payload_ok x (fun x _ => x) (fun x _ => x) (fun x _ => x) narrow (fun _ _ => x) e Nd b mat_size u st HB HM HN HW).
  - rewrite be_site_bytes. now apply emit_wrote.
Qed.
Print Assumptions C44_written.

(** Reading: the first rows of every link are the numbers in the file (of 4 or 8 bytes), a missing third row is
    reconstructed, and the checksum is the sum of the 32-bit words in the file. *)
Theorem C44_read : forall A (rO rI : A) radd rmul rsub ropp (R : ring_theory rO rI radd rmul rsub ropp eq) (cast : nat -> N -> A)
  e Nd b mat_size size u w st, build_ok b -> mat_size = 12 \/ mat_size = 18 -> size = 4 \/ size = 8 ->
  (forall dd c, dd < Nd -> in_lattice (build_size b) c -> site_ok size mat_size (w dd c)) ->
  readable (site_bytes size (all_words b Nd w)) st ->
  exists G st', read_payload rO radd rmul rsub cast e Nd b mat_size size u st
      = Val (G, sum_of (flat_map (parts size) (all_words b Nd w)), st') /\
    was_read (site_bytes size (all_words b Nd w)) st st' /\
    forall dd c, dd < Nd -> in_lattice (build_size b) c ->
      numbers (rows_of mat_size) (link_at b G dd c) = map (cast size) (w dd c) /\
      (mat_size = 12 -> forall j, j < 3 -> link_at b G dd c 2 j
         = bar ropp (cross_product radd rmul rsub (link_at b G dd c 0) (link_at b G dd c 1) j)).
Proof.
  intros A rO rI radd rmul rsub ropp R cast e Nd b mat_size size u w st HB HM HS HW HR.
  rewrite <- be_site_bytes in *. destruct (readable_ready _ _ HR) as (rest & HR').
  destruct (read_payload_ok rO radd rmul rsub (fun _ => 0%N) cast e Nd mat_size size HM HS w b u rest st HB HW HR') as (G & E & EG).
  exists G. eexists. split; [exact E|]. split; [apply consume_read|]. intros dd c Hd Hc. destruct (HW dd c Hd Hc) as [L _].
  rewrite EG by assumption. unfold mat. split.
  - apply (matrix_of_numbers rO radd rmul rsub mat_size); [exact HM|]. now rewrite map_length.
  - intros E12 j Hj. rewrite E12 in *. apply (matrix_third rO rI radd rmul rsub ropp R); [|exact Hj]. now rewrite map_length.
Qed.
Print Assumptions C44_read.

(** A whole archive, of two rows per matrix, written by one build on one machine and read by another of the same order of sites:
    the checksums agree; unless the plaquette or the link trace is found different, the configuration is read back.  [h] is the
    header given to the writer, [h0] and [u0] the variables given to the reader. *)
Theorem C44_archive : forall A F (rO rI : A) radd rmul rsub ropp (R : ring_theory rO rI radd rmul rsub ropp eq) narrow cast
  (show : F -> list N) strtod mesplq close e1 e2 b1 b2 h h0 u u0,
  prints_well show -> (forall x, (narrow x < 2 ^ 32)%N) -> build_ok b1 -> build_ok b2 -> build_size b1 = build_size b2 ->
  (build_kind b1 = CB3D <-> build_kind b2 = CB3D) -> mat_size h = 12 -> header_ok (build_size b1) h -> lines_fit h ->
  exists h1 st h2 G, writeArchiv show (build_size b1) narrow mesplq e1 b1 h u = Val (h1, st) /\
    readArchiv strtod (build_size b2) rO radd rmul rsub cast mesplq close e2 b2 h0 u0 (s_data st)
    = (if close (w_plaq h2) (fst (mesplq b2 G)) && close (link h2) (snd (mesplq b2 G)) then Val (h2, G) else Abort) /\
    w_plaq h1 = fst (mesplq b1 u) /\ link h1 = snd (mesplq b1 u) /\
    (forall x, strtod (show (w_plaq h1)) = Some x -> w_plaq h2 = x) /\ (forall x, strtod (show (link h1)) = Some x -> link h2 = x) /\
    Val (checksum h1) = computeChecksum narrow 4 b1 12 u /\ checksum h2 = checksum h1 /\
    forall dd c, dd < 4 -> in_lattice (build_size b2) c ->
      numbers 2 (link_at b2 G dd c) = map (fun x => cast 4 (narrow x)) (numbers 2 (link_at b1 u dd c)) /\
      forall j, j < 3 -> link_at b2 G dd c 2 j = bar ropp (cross_product radd rmul rsub (link_at b2 G dd c 0) (link_at b2 G dd c 1) j).
Proof.
  intros A F rO rI radd rmul rsub ropp R narrow cast show strtod mesplq close e1 e2 b1 b2 h h0 u u0 HS HN HB1 HB2 ES EK EM HO HF.
  destruct (archive_ok rO radd rmul rsub narrow cast show strtod mesplq close HS HN e1 e2 b1 b2 h h0 u u0 HB1 HB2 ES EK EM HO HF) as (st & G & E1 & E2 & EG).
  set (h1 := filled mesplq b1 h u (sum_of (file_words narrow b1 12 u))) in *.
  set (h2 := result show strtod (build_size b1) h1 (set_mat_size 18 (set_nrow (repeat None 4) h0))) in *.
  exists h1, st, h2, G. split; [exact E1|]. split; [exact E2|]. split; [reflexivity|]. split; [reflexivity|].
  assert (EF : forall p l, strtod (skip_ws (show (w_plaq h1))) = p -> strtod (skip_ws (show (link h1))) = l ->
    (forall x, p = Some x -> w_plaq h2 = x) /\ (forall x, l = Some x -> link h2 = x) /\ checksum h2 = checksum h1).
  { intros p l <- <-. unfold h2, result, after2, after_dims, after1.
    cbn [w_plaq link checksum set_float_size set_archive_date set_creation_date set_creator_hardware set_creator
          set_sequence_number set_ensemble_label set_ensemble_id set_nrow set_mat_size]. unfold setw, setl.
    destruct (strtod (skip_ws (show (w_plaq h1)))), (strtod (skip_ws (show (link h1))));
      (split; [|split]); try reflexivity; intros x X; first [discriminate X|injection X as <-; reflexivity]. }
  rewrite !(skip_ws_show show) in EF by exact HS. destruct (EF _ _ eq_refl eq_refl) as (P1 & P2 & P3).
  split; [exact P1|]. split; [exact P2|]. split; [rewrite C44_checksum by auto; reflexivity|]. split; [exact P3|].
  intros dd c Hd Hc. rewrite EG by assumption. split.
  - change 2 with (rows_of 12) at 1. rewrite (matrix_of_numbers rO radd rmul rsub 12); [|now left|reflexivity].
    unfold words_of. now rewrite map_map.
  - intros j Hj. apply (matrix_third rO rI radd rmul rsub ropp R); [reflexivity|exact Hj].
Qed.
Print Assumptions C44_archive.

(** So matrices of SU(3) whose entries are numbers of single precision come back as they were. *)
Theorem C44_archive_exact : forall A F (rO rI : A) radd rmul rsub ropp (R : ring_theory rO rI radd rmul rsub ropp eq) narrow cast
  (show : F -> list N) strtod mesplq close e1 e2 b1 b2 h h0 u u0,
  prints_well show -> (forall x, (narrow x < 2 ^ 32)%N) -> build_ok b1 -> build_ok b2 -> build_size b1 = build_size b2 ->
  (build_kind b1 = CB3D <-> build_kind b2 = CB3D) -> mat_size h = 12 -> header_ok (build_size b1) h -> lines_fit h ->
  (forall dd c, dd < 4 -> in_lattice (build_size b1) c ->
     unitary rO rI radd rmul rsub ropp (link_at b1 u dd c) /\ det radd rmul rsub (link_at b1 u dd c) = one rO rI /\
     Forall (fun x => cast 4 (narrow x) = x) (numbers 2 (link_at b1 u dd c))) ->
  exists h1 st h2 G, writeArchiv show (build_size b1) narrow mesplq e1 b1 h u = Val (h1, st) /\
    readArchiv strtod (build_size b2) rO radd rmul rsub cast mesplq close e2 b2 h0 u0 (s_data st)
    = (if close (w_plaq h2) (fst (mesplq b2 G)) && close (link h2) (snd (mesplq b2 G)) then Val (h2, G) else Abort) /\
    forall dd c i j, dd < 4 -> in_lattice (build_size b2) c -> i < 3 -> j < 3 -> link_at b2 G dd c i j = link_at b1 u dd c i j.
Proof.
  intros A F rO rI radd rmul rsub ropp R narrow cast show strtod mesplq close e1 e2 b1 b2 h h0 u u0 HS HN HB1 HB2 ES EK EM HO HF HU.
  destruct (archive_ok rO radd rmul rsub narrow cast show strtod mesplq close HS HN e1 e2 b1 b2 h h0 u u0 HB1 HB2 ES EK EM HO HF) as (st & G & E1 & E2 & EG).
  eexists. exists st. eexists. exists G. split; [exact E1|]. split; [exact E2|]. intros dd c i j Hd Hc Hi Hj.
  rewrite EG by assumption. rewrite <- ES in Hc. destruct (HU dd c Hd Hc) as (U1 & U2 & U3).
  destruct (C43_reconstruct A rO rI radd rmul rsub ropp R (link_at b1 u dd c) U1) as (V & EV & RV).
  assert (EN : map (cast 4) (words_of narrow 12 (link_at b1 u dd c)) = numbers 2 (link_at b1 u dd c)).
  { unfold words_of. rewrite map_map. change (rows_of 12) with 2. clear - U3. induction U3 as [|x l Hx _ IH]; [reflexivity|]. cbn [map]. now rewrite Hx, IH. }
  rewrite EN. unfold matrix_of. rewrite EV. now apply RV.
Qed.
Print Assumptions C44_archive_exact.

(** A case: single-precision numbers stand for 32-bit integers, all links are [su3_case]. *)
Definition narrow_case (z : Z) : N := Z.to_N (z mod 2 ^ 32)%Z.
Definition cast_case (_ : nat) (n : N) : Z := if (n <? 2 ^ 31)%N then Z.of_N n else (Z.of_N n - 2 ^ 32)%Z.
Definition show_case (x : bool) : list N := [if x then 49%N else 48%N].
Definition strtod_case (l : list N) : option bool := match l with c :: _ => Some (c =? 49)%N | [] => None end.
Definition header_case : @header bool :=
  {| nrow := [Some 2; Some 2; Some 2; Some 2]%Z; boundary := [1; 1; 1; -1]%Z; w_plaq := false; link := false; mat_size := 12; float_size := 8;
     checksum := 0; sequence_number := 17; ensemble_id := txt "  u"; ensemble_label := txt "v w"; creator := txt "x"; creator_hardware := txt "y";
     creation_date := txt "z"; archive_date := txt "" |}.
Lemma narrow_small z : (narrow_case z < 2 ^ 32)%N.
Proof. unfold narrow_case. pose proof (Z.mod_pos_bound z (2 ^ 32) eq_refl) as H. change (2 ^ 32)%N with (Z.to_N (2 ^ 32)). apply Z2N.inj_lt; [lia|discriminate|lia]. Qed.
Lemma show_case_ok : prints_well show_case.
Proof.
  intros x. split; [|split; [cbn; lia|]].
  - destruct x; (split; [repeat constructor|split; intros [H|[]]; discriminate]).
  - destruct x; eexists; eexists; (split; [reflexivity|]); split; lia.
Qed.
Lemma one_line_dec s : forallb (fun c => (c <? 256) && negb (c =? 10) && negb (c =? 0))%N s = true -> one_line s.
Proof.
  intros H. rewrite forallb_forall in H. split; [|split].
  - apply Forall_forall. intros c Hc. specialize (H c Hc). lia.
  - intros Hc. specialize (H _ Hc). discriminate.
  - intros Hc. specialize (H _ Hc). discriminate.
Qed.
Lemma header_case_ok : header_ok [4;2;2;2] header_case.
Proof.
  split; [reflexivity|]. split; [repeat constructor; discriminate|]. split; [reflexivity|].
  split; [apply Forall_forall; cbn; intros x [<-|[<-|[<-|[<-|[]]]]]; auto|]. split; [reflexivity|]. split; [split; [discriminate|reflexivity]|].
  repeat (constructor; [apply one_line_dec; reflexivity|]). constructor.
Qed.
Lemma header_case_fits : lines_fit header_case.
Proof. repeat (constructor; [cbn; lia|]). constructor. Qed.
Example C44_case : let b1 := Multi false CB2 (lex_machine [2;1;1;1]) [4;2;2;2] in let b2 := Single LEXICO [4;2;2;2] in
  let u := fun _ _ _ => su3_case in
  build_ok b1 /\ build_ok b2 /\ header_ok [4;2;2;2] header_case /\ lines_fit header_case /\ prints_well show_case /\
  (forall x, narrow_case x < 2 ^ 32)%N /\ Forall (fun x => cast_case 4 (narrow_case x) = x) (numbers 2 su3_case) /\
  match writeArchiv show_case [4;2;2;2] narrow_case (fun _ _ => (true, false)) LittleE b1 header_case u with
  | Val (h1, st) => checksum h1 = 256%N /\
      match readArchiv strtod_case [4;2;2;2] 0%Z Z.add Z.mul Z.sub cast_case (fun _ _ => (true, false)) Bool.eqb BigE b2 header_case
        (fun _ _ _ _ _ => (0, 0))%Z (s_data st) with
      | Val (h2, G) => link_at b2 G 3 [1;0;1;1] 2 0 = (-1, 0)%Z /\ ensemble_id h2 = txt "u"
      | _ => False
      end
  | _ => False
  end.
Proof.
  intros b1 b2 u. split; [apply admP_case; reflexivity|]. split; [apply adm1_case; reflexivity|]. split; [apply header_case_ok|].
  split; [apply header_case_fits|]. split; [apply show_case_ok|]. split; [apply narrow_small|]. split; [repeat constructor|].
  vm_compute. repeat split.
Qed.

(** C45.  What is read from a written header. *)
Theorem C45_header : forall F (show : F -> list N) (strtod : list N -> option F) L h h0 e st, prints_well show -> header_ok L h -> writable st ->
  exists text st', writeArchivHeader show L e h st = Val st' /\ wrote text st st' /\
    (lines_fit h -> forall rst rest, s_fail rst = false -> (s_joint rst = true -> s_get rst = s_put rst) ->
       s_get rst <= length (s_data rst) -> skipn (s_get rst) (s_data rst) = text ++ rest ->
       exists h2 rst', readArchivHeader strtod L h0 rst = Val (h2, rst') /\ was_read text rst rst' /\
         nrow h2 = map (fun l => Some (Z.of_nat l)) L /\ checksum h2 = checksum h /\ sequence_number h2 = sequence_number h /\
         mat_size h2 = 12 /\ float_size h2 = 4 /\ boundary h2 = boundary h0 /\
         w_plaq h2 = match strtod (show (w_plaq h)) with Some x => x | None => w_plaq h0 end /\
         link h2 = match strtod (show (link h)) with Some x => x | None => link h0 end /\
         Forall2 (fun p q : string * list N => fst p = fst q /\ unindented (snd p) (snd q)) (texts h) (texts h2)) /\
    (~ lines_fit h -> forall rst rest, s_fail rst = false -> (s_joint rst = true -> s_get rst = s_put rst) ->
       s_get rst <= length (s_data rst) -> skipn (s_get rst) (s_data rst) = text ++ rest ->
       readArchivHeader strtod L h0 rst = Abort).
Proof.
  intros F show strtod L h h0 e st HS HO HW. exists (text_of show L h). eexists.
  assert (RD : forall rst rest, s_fail rst = false -> (s_joint rst = true -> s_get rst = s_put rst) ->
       s_get rst <= length (s_data rst) -> skipn (s_get rst) (s_data rst) = text_of show L h ++ rest -> ready rst (text_of show L h ++ rest)).
  { intros rst rest R1 R2 R3 R4. split; [exact R1|]. split; [exact R2|]. exists (firstn (s_get rst) (s_data rst)).
    rewrite <- R4, firstn_skipn, firstn_length. split; [reflexivity|lia]. }
  split; [now apply (write_header_ok show strtod)|]. split; [now apply emit_wrote|]. split.
  - intros HF rst rest R1 R2 R3 R4. eexists. eexists.
    split; [now apply (read_header_ok show strtod L h h0 rest rst HS HO HF), RD|]. split; [apply consume_read|].
    unfold result, after2, after_dims, after1, setw, setl. rewrite !(skip_ws_show show) by exact HS.
    split; [reflexivity|]. split; [destruct (strtod (show (w_plaq h))), (strtod (show (link h))); reflexivity|]. split; [reflexivity|].
    split; [reflexivity|]. split; [reflexivity|]. split; [destruct (strtod (show (w_plaq h))), (strtod (show (link h))); reflexivity|].
    split; [destruct (strtod (show (w_plaq h))), (strtod (show (link h))); reflexivity|].
    split; [destruct (strtod (show (w_plaq h))), (strtod (show (link h))); reflexivity|].
    unfold texts. repeat (constructor; [split; [reflexivity|apply skip_blanks_unindented]|]). constructor.
  - intros HF rst rest R1 R2 R3 R4. now apply (read_header_long show strtod L h h0 rest rst HS HO HF), RD.
Qed.
Print Assumptions C45_header.

(** Headers with the known lines, and lines without a meaning, in any order, as other programs write them.  [h1] collects what
    the lines say, starting from three rows.  Four lines must give the size; it must be the size of the lattice. *)
Theorem C45_any_header : forall F (strtod : list N -> option F) L xs h0 st,
  Forall item_ok xs -> Forall (fun x => length (line_of x) < 128) xs -> length (boundary h0) = 4 -> readable (header_file xs) st ->
  let h1 := fold_left (fun h x => means strtod x h) xs (set_mat_size 18 (set_nrow [None; None; None; None] h0)) in
  (length (sizes xs) <> 4 -> readArchivHeader strtod L h0 st = Abort) /\
  (forall Ls, length Ls = 4 -> Permutation (sizes xs) (combine [1;2;3;4] Ls) ->
     nrow h1 = map Some Ls /\
     (Ls = map Z.of_nat L -> exists st', readArchivHeader strtod L h0 st = Val (h1, st') /\ was_read (header_file xs) st st') /\
     (Ls <> map Z.of_nat L -> readArchivHeader strtod L h0 st = Abort)).
Proof.
  intros F strtod L xs h0 st HX HL HB HR h1. destruct (readable_ready _ _ HR) as (rest & HR').
  pose proof (read_items strtod L xs h0 rest st HX HL HB HR') as E. cbv zeta in E.
  change (set_nrow (repeat None 4) h0) with (set_nrow [None; None; None; None] h0) in E. fold h1 in E. rewrite E. clear E. split.
  - intros HN. unfold check_size. change Nd with 4. destruct (Nat.eqb_spec (length (sizes xs)) 4); [congruence|reflexivity].
  - intros Ls H4 HP. assert (EN : nrow h1 = map Some Ls).
    { unfold h1. rewrite nrow_means by reflexivity. now apply sizes_found. }
    split; [exact EN|]. unfold check_size. rewrite EN. replace (length (sizes xs) =? Nd) with true.
    2:{ symmetry. apply Nat.eqb_eq. apply Permutation_length in HP. rewrite HP, combine_length, H4. reflexivity. }
    assert (EM : mapM of_option (map Some Ls) = Val Ls).
    { clear. induction Ls as [|x Ls IH]; [reflexivity|]. cbn [map mapM of_option bind]. now rewrite IH. }
    rewrite EM. cbn [bind]. destruct (list_eq_dec Z.eq_dec Ls (map Z.of_nat L)); (split; [intros X|intros X]); try congruence; [|reflexivity].
    eexists. split; [reflexivity|apply consume_read].
Qed.
Print Assumptions C45_any_header.

(** If one of the four sizes is given twice and another is missing, the comparison uses memory that was never set. *)
Theorem C45_repeated_size_refuted : forall F (strtod : list N -> option F) L xs h0 st i,
  Forall item_ok xs -> Forall (fun x => length (line_of x) < 128) xs -> length (boundary h0) = 4 -> readable (header_file xs) st ->
  length (sizes xs) = 4 -> 1 <= i <= 4 -> ~ In i (map fst (sizes xs)) -> readArchivHeader strtod L h0 st = Undef.
Proof.
  intros F strtod L xs h0 st i HX HL HB HR H4 Hi HI. destruct (readable_ready _ _ HR) as (rest & HR').
  pose proof (read_items strtod L xs h0 rest st HX HL HB HR') as E. cbv zeta in E. rewrite E. clear E.
  unfold check_size. rewrite H4. change (4 =? Nd) with true. cbv iota. rewrite nrow_means by reflexivity.
  rewrite mapM_none; [reflexivity| |eauto]. apply (nth_error_In _ (i - 1)). rewrite replace_other.
  - cbn [nrow set_nrow set_mat_size]. destruct i as [|[|[|[|[|i]]]]]; try lia; reflexivity.
  - intros p Hp E. apply HI. replace i with (S (i - 1)) by lia. rewrite <- E. now apply in_map.
Qed.
Print Assumptions C45_repeated_size_refuted.

Definition items_case : list item :=
  [SizeIs 2 4; BoundaryIs 4 (-1); OtherIs (txt "HDR_VERSION") (txt "1.0"); WordsAre Ieee64Big; SizeIs 1 4; TextIs CreatorMachine (txt "a b");
   ThreeRows; SizeIs 4 8; ChecksumIs 2748; SizeIs 3 4; PlaquetteIs (txt "1")].
Lemma meaningless_case : meaningless (txt "HDR_VERSION").
Proof.
  split; [discriminate|]. split; [|split; [discriminate|split; [discriminate|split; [intros []; discriminate|]]]].
  - intros c Hc. cbn in Hc. repeat (destruct Hc as [<-|Hc]; [lia|]). destruct Hc.
  - intros p Hp (r & E). cbn in Hp. repeat (destruct Hp as [<-|Hp]; [discriminate E|]). destruct Hp.
Qed.
Example C45_items_case : Forall item_ok items_case /\ Forall (fun x => length (line_of x) < 128) items_case /\
  Permutation (sizes items_case) (combine [1;2;3;4] [4;4;4;8]%Z) /\
  match readArchivHeader strtod_case [4;4;4;8] header_case (file_reader (header_file items_case)) with
  | Val (h, _) => mat_size h = 18 /\ float_size h = 8 /\ boundary h = [1;1;1;-1]%Z /\ checksum h = 2748%N /\ creator_hardware h = txt "a b" /\ w_plaq h = true
  | _ => False
  end.
Proof.
  split; [|split; [|split]].
  - repeat apply Forall_cons; try apply Forall_nil; cbn [item_ok]; try exact I; try reflexivity;
      try (split; [lia|split; [discriminate|reflexivity]]).
    + split; [apply one_line_dec; reflexivity|]. split; [apply one_line_dec; reflexivity|apply meaningless_case].
    + split; [apply one_line_dec; reflexivity|discriminate].
    + split; [apply one_line_dec; reflexivity|]. intros c Hc. injection Hc as <-. lia.
  - repeat (apply Forall_cons; [vm_compute; lia|]). apply Forall_nil.
  - cbn. eapply perm_trans; [apply perm_swap|]. do 2 apply perm_skip. apply perm_swap.
  - vm_compute. repeat split.
Qed.

(** So C45 is false.  The matrix format is lost: an archive that claims to have three rows is written as such, but its header
    says two, and it cannot be read back (except where the checksum happens not to notice). *)
Theorem C45_three_rows_refuted : forall A F (rO : A) radd rmul rsub narrow cast (show : F -> list N) strtod mesplq close e1 e2 b1 b2 h h0 u u0,
  prints_well show -> (forall x, (narrow x < 2 ^ 32)%N) -> build_ok b1 -> build_ok b2 -> build_size b1 = build_size b2 ->
  (build_kind b1 = CB3D <-> build_kind b2 = CB3D) -> mat_size h = 18 -> header_ok (build_size b1) h -> lines_fit h ->
  let words := all_words b1 4 (fun dd c => map narrow (numbers 3 (link_at b1 u dd c))) in
  sum_of (skipn (12 * 4 * volume (build_size b1)) words) <> 0%N ->
  exists h1 st, writeArchiv show (build_size b1) narrow mesplq e1 b1 h u = Val (h1, st) /\
    readArchiv strtod (build_size b2) rO radd rmul rsub cast mesplq close e2 b2 h0 u0 (s_data st) = Abort.
Proof. intros. now apply archive_three_rows. Qed.
Print Assumptions C45_three_rows_refuted.

(** Nor can an archive with a line of more than 127 characters. *)
Theorem C45_long_line_refuted : forall A F (rO : A) radd rmul rsub narrow cast (show : F -> list N) strtod mesplq close e1 e2 b1 b2 h h0 u u0,
  prints_well show -> (forall x, (narrow x < 2 ^ 32)%N) -> build_ok b1 -> build_size b1 = build_size b2 ->
  mat_size h = 12 \/ mat_size h = 18 -> header_ok (build_size b1) h -> ~ lines_fit h ->
  exists h1 st, writeArchiv show (build_size b1) narrow mesplq e1 b1 h u = Val (h1, st) /\
    readArchiv strtod (build_size b2) rO radd rmul rsub cast mesplq close e2 b2 h0 u0 (s_data st) = Abort.
Proof. intros. now apply archive_long. Qed.
Print Assumptions C45_long_line_refuted.

(** The checksum of a header in XML is read back only if it is a single decimal digit. *)
Theorem C45_xml_checksum_refuted : forall c, xml_checksum c = c <-> (c < 10)%N.
Proof. exact xml_checksum_ok. Qed.
Print Assumptions C45_xml_checksum_refuted.

Definition long_case : @header bool := set_creator_hardware (repeat 97%N 109) header_case.
Definition rows_case : @header bool := set_mat_size 18 header_case.
Example C45_case : header_ok [4;2;2;2] long_case /\ ~ lines_fit long_case /\ lines_fit (set_creator_hardware (repeat 97%N 108) header_case) /\
  header_ok [4;2;2;2] rows_case /\ lines_fit rows_case /\
  (let b := Single LEXICO [4;2;2;2] in
   sum_of (skipn (12 * 4 * 32) (all_words b 4 (fun dd c => map narrow_case (numbers 3 (link_at b (fun _ _ _ => su3_case) dd c))))) <> 0%N) /\
  xml_checksum 16 = 10%N /\ xml_checksum 2748 = 0%N.
Proof.
  split; [|split; [|split; [|split; [|split]]]].
  - destruct header_case_ok as (H1 & H2 & H3 & H4 & H5 & H6 & H7). split; [exact H1|]. split; [exact H2|]. split; [exact H3|]. split; [exact H4|]. split; [exact H5|].
    split; [exact H6|]. repeat (constructor; [apply one_line_dec; reflexivity|]). constructor.
  - intros H. unfold lines_fit in H. rewrite Forall_forall in H.
    specialize (H ("CREATOR_HARDWARE"%string, repeat 97%N 109) ltac:(cbn; tauto)). vm_compute in H. lia.
  - repeat (constructor; [cbn; lia|]). constructor.
  - exact header_case_ok.
  - exact header_case_fits.
  - split; [vm_compute; discriminate|]. split; reflexivity.
Qed.

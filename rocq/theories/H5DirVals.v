(** Values written to HDF5 files are read back. *)
From Coq Require Import String Ascii List Arith NArith Bool Lia.
From Verif Require Import Base CrcModel CrcSpec SwapProofs LatIoModel LatIoSpec LatIoProofs H5DirModel H5DirSpec H5DirProofs H5DirOps H5DirFrame.
Import ListNotations.
Local Open Scope nat_scope.
Local Notation length := List.length.

(** ** Memory *)
Lemma image_app e size a b : image e size (a ++ b) = image e size a ++ image e size b.
Proof. unfold image. now rewrite map_app, concat_app. Qed.
Lemma image_concat e size ls : image e size (concat ls) = concat (map (image e size) ls).
Proof. induction ls as [|l ls IH]; [reflexivity|]. cbn [concat map]. now rewrite image_app, IH. Qed.
Lemma mem_ok e n v : bytes_ok (mem e n v).
Proof. destruct e; cbn [mem]; [apply bytes_ok_rev|]; apply le_bytes_ok. Qed.
Lemma image_ok e size w : bytes_ok (image e size w).
Proof. induction w as [|v w IH]; [constructor|]. apply Forall_app. split; [apply mem_ok|exact IH]. Qed.
Lemma bytes_ok_firstn n bs : bytes_ok bs -> bytes_ok (firstn n bs).
Proof. intro H. rewrite <- (firstn_skipn n bs) in H. now apply Forall_app in H. Qed.
Lemma bytes_ok_skipn n bs : bytes_ok bs -> bytes_ok (skipn n bs).
Proof. intro H. rewrite <- (firstn_skipn n bs) in H. now apply Forall_app in H. Qed.
Lemma unimage_length e size n bs : length (unimage e size n bs) = n.
Proof. unfold unimage. now rewrite map_length, seq_length. Qed.
Lemma skipn_twice {A} a b (l : list A) : skipn a (skipn b l) = skipn (b + a) l.
Proof. revert l. induction b as [|b IH]; intro l; [reflexivity|]. destruct l; [now rewrite !skipn_nil|]. cbn. apply IH. Qed.
Lemma unimage_S e size n bs : unimage e size (S n) bs = word e (firstn size bs) :: unimage e size n (skipn size bs).
Proof.
  unfold unimage. cbn [seq map]. f_equal. rewrite <- seq_shift, map_map. apply map_ext. intro j.
  rewrite skipn_twice. reflexivity.
Qed.
Lemma image_unimage e size n bs : length bs = n * size -> bytes_ok bs -> image e size (unimage e size n bs) = bs.
Proof.
  revert bs. induction n as [|n IH]; intros bs HL HB.
  - destruct bs; [reflexivity|discriminate].
  - rewrite unimage_S. change (image e size (word e (firstn size bs) :: unimage e size n (skipn size bs)))
      with (mem e size (word e (firstn size bs)) ++ image e size (unimage e size n (skipn size bs))).
    rewrite IH; [|rewrite skipn_length; lia|now apply bytes_ok_skipn].
    rewrite mem_word; [apply firstn_skipn|rewrite firstn_length; lia|now apply bytes_ok_firstn].
Qed.

Lemma concat_length_all {A} (ls : list (list A)) o : Forall (fun l => length l = o) ls -> length (concat ls) = length ls * o.
Proof. induction 1 as [|l ls H _ IH]; [reflexivity|]. cbn [concat length]. rewrite app_length, IH, H. reflexivity. Qed.
Lemma skipn_concat {A} (ls : list (list A)) o i : Forall (fun l => length l = o) ls -> i <= length ls ->
  skipn (i * o) (concat ls) = concat (skipn i ls).
Proof.
  intro H. revert i. induction H as [|l ls H _ IH]; intros i Hi.
  - cbn in Hi. replace i with 0 by lia. reflexivity.
  - destruct i as [|i]; [reflexivity|]. cbn [concat skipn]. rewrite skipn_app, H.
    rewrite skipn_all2 by (rewrite H; nia). cbn [app]. replace (S i * o - o) with (i * o) by lia. apply IH. cbn in Hi. lia.
Qed.
Lemma skipn_nth {A} (ls : list A) i d : i < length ls -> skipn i ls = nth i ls d :: skipn (S i) ls.
Proof. revert i. induction ls as [|l ls IH]; intros i H; [cbn in H; lia|]. destruct i; [reflexivity|]. cbn. apply IH. cbn in H. lia. Qed.
Lemma nth_skipn' {A} (l : list A) k j d : nth j (skipn k l) d = nth (k + j) l d.
Proof. revert l. induction k as [|k IH]; intros [|a l]; try reflexivity; [now destruct j|]. cbn. apply IH. Qed.
Lemma map_nth_seq {A} (l : list A) d : map (fun i => nth i l d) (seq 0 (length l)) = l.
Proof.
  induction l as [|a l IH]; [reflexivity|]. cbn [length seq map nth]. f_equal. rewrite <- seq_shift, map_map. exact IH.
Qed.

(** ** Strings *)
Lemma c_str_ok cs r : Forall (fun c => c <> 0%N) cs -> c_str (cs ++ 0%N :: r) = Val cs.
Proof.
  induction 1 as [|c cs H _ IH]; [reflexivity|]. cbn [app c_str]. destruct (N.eqb_spec c 0); [contradiction|]. now rewrite IH.
Qed.

Section P.
  Variables (dot : bool) (att_max : nat).

  (** ** Finding objects *)
  Lemma find_ok x s p d : good x -> denotes (s_cwd x) s p -> obj (s_file x) p = Some (Dataset d) -> find dot s x = Val d.
  Proof.
    intros HG HD HO. destruct (denotes_facts _ _ _ HD) as (_ & _ & _ & HA).
    unfold find. now rewrite (exists_ok dot _ _ _ _ (proj1 HG) HD), HA, HO.
  Qed.
  Lemma find_not x s p : good x -> denotes (s_cwd x) s p -> (forall d, obj (s_file x) p <> Some (Dataset d)) -> find dot s x = Abort.
  Proof.
    intros HG HD HO. destruct (denotes_facts _ _ _ HD) as (_ & _ & _ & HA).
    unfold find. rewrite (exists_ok dot _ _ _ _ (proj1 HG) HD), HA. destruct (obj (s_file x) p) as [[|d|t]|] eqn:E; try reflexivity.
    now contradiction (HO d).
  Qed.
  Lemma find_att_ok x s p a d : good x -> denotes (s_cwd x) s p -> att (s_file x) p a = Some d -> find_att dot s a x = Val d.
  Proof.
    intros HG HD HO. destruct (denotes_facts _ _ _ HD) as (_ & _ & _ & HA).
    unfold find_att. rewrite (exists_ok dot _ _ _ _ (proj1 HG) HD), HA, HO.
    destruct (obj (s_file x) p) eqn:E; [reflexivity|]. exfalso. destruct HG as ((_ & _ & _ & T4) & _).
    apply (T4 p a); [rewrite HO; discriminate|assumption].
  Qed.
  Lemma find_att_not x s p a : good x -> denotes (s_cwd x) s p -> att (s_file x) p a = None -> find_att dot s a x = Abort.
  Proof.
    intros HG HD HO. destruct (denotes_facts _ _ _ HD) as (_ & _ & _ & HA).
    unfold find_att. rewrite (exists_ok dot _ _ _ _ (proj1 HG) HD), HA, HO. now destruct (obj (s_file x) p).
  Qed.

  Lemma check_ok t d : d_ty d = ty_of t -> check t d = Val d.
  Proof. intro E. unfold check. rewrite E. now destruct t. Qed.

  Lemma rows_read n1 (rows : list (list N)) : Forall (fun r => length r = n1) rows ->
    let E := flat_map (fun i => map (fun j => [nth j (nth i rows []) 0%N]) (seq 0 n1)) (seq 0 (length rows)) in
    map (fun i => map (fun j => word_of (nth (j + n1 * i) E []) 0) (seq 0 n1)) (seq 0 (length rows)) = rows.
  Proof.
    intros HF E.
    assert (EE : E = concat (map (map (fun v : N => [v])) rows)).
    { unfold E. rewrite flat_map_concat_map. f_equal. rewrite <- (map_nth_seq rows []) at 2. rewrite map_map. apply map_ext_in.
      intros i Hi. apply in_seq in Hi.
      assert (HL : length (nth i rows []) = n1) by (apply (proj1 (Forall_forall _ _) HF), nth_In; lia).
      transitivity (map (fun v : N => [v]) (map (fun j => nth j (nth i rows []) 0%N) (seq 0 n1))); [now rewrite map_map|].
      rewrite <- HL. now rewrite map_nth_seq. }
    assert (HF' : Forall (fun l => length l = n1) (map (map (fun v : N => [v])) rows)).
    { apply Forall_forall. intros l Hl. apply in_map_iff in Hl. destruct Hl as (r & <- & Hr). rewrite map_length.
      exact (proj1 (Forall_forall _ _) HF r Hr). }
    rewrite <- (map_nth_seq rows []) at 2. apply map_ext_in. intros i Hi. apply in_seq in Hi.
    assert (HL : length (nth i rows []) = n1) by (apply (proj1 (Forall_forall _ _) HF), nth_In; lia).
    transitivity (map (fun j => nth j (nth i rows []) 0%N) (seq 0 n1)); [|rewrite <- HL; apply map_nth_seq].
    apply map_ext_in. intros j Hj. apply in_seq in Hj.
    rewrite EE. rewrite Nat.add_comm, Nat.mul_comm. rewrite <- nth_skipn'.
    rewrite skipn_concat by (try assumption; rewrite map_length; lia).
    rewrite (skipn_nth _ i []) by (rewrite map_length; lia). cbn [concat].
    assert (En : nth i (map (map (fun v : N => [v])) rows) [] = map (fun v => [v]) (nth i rows [])).
    { change (@nil (list N)) with (map (fun v : N => [v]) []). apply map_nth. }
    rewrite En, app_nth1 by (rewrite map_length; lia).
    rewrite (nth_indep _ [] [0%N]) by (rewrite map_length; lia). rewrite (map_nth (fun v => [v])). reflexivity.
  Qed.

  Section V.
    Variables (e : endian) (conv : nat -> nat -> N -> N) (real : nat).
    Hypothesis Hreal : real = 4 \/ real = 8.

    (** What is stored for a value. *)
    Definition stored (v : value) : res data :=
      match v with
      | VScalar t v => Val (data_scalar t v)
      | VArray t vs => Val (data_array t vs)
      | VArray2 t n1 rows => Val (data_array2 t (length rows) n1 (fun i j => nth j (nth i rows []) 0%N))
      | VString cs => Val (data_string cs)
      | VComplex b re im => Val (mkData (complex_t (width b)) [] [[re; im]])
      | VComplexes b vs => Val (mkData (complex_t (width b)) [length vs] (map (fun c => [fst c; snd c]) vs))
      | VObject w n v => oscalar_data e real w n [v]
      | VObjects w n vs => oscalar_data e real w n vs
      end.

    Lemma whole w n m : 0 < n -> 0 < w -> n * w = m * real -> n * w / real = m /\ 0 < m.
    Proof.
      intros H1 H2 H3. split; [rewrite H3; apply Nat.div_mul; lia|]. destruct m; [nia|lia].
    Qed.
    Lemma oscalar_stored w n m vs : 0 < n -> 0 < w -> n * w = m * real ->
      oscalar_data e real w n vs = Val (data_array (real_t real) (concat (map (A := list N) (B := list N) (fun v => unimage e real m (image e w v)) vs))).
    Proof.
      intros H1 H2 H3. destruct (whole _ _ _ H1 H2 H3) as [H4 H5]. unfold oscalar_data. rewrite H4, H3, Nat.ltb_irrefl. reflexivity.
    Qed.
    Lemma value_stored v : value_ok real v -> exists d, stored v = Val d.
    Proof.
      intro H. destruct v; cbn [stored]; try (eexists; reflexivity).
      - destruct H as (H1 & H2 & [m H3] & _). eexists. now apply (oscalar_stored w n m).
      - destruct H as (H1 & H2 & [m H3] & _). eexists. now apply (oscalar_stored w n m).
    Qed.

    (** Conditions on the named type hold again after it is made. *)
    Lemma commit_ok tn t x : good x -> proper tn -> (obj (s_file x) [tn] = None \/ obj (s_file x) [tn] = Some (NamedType t)) ->
      exists y, commit tn t x = Ok (t, y) /\ good y /\ s_cwd y = s_cwd x /\ (forall q, q <> [tn] -> kept (s_file x) (s_file y) q).
    Proof.
      intros HG Htn HO. pose proof HG as (HT & HC & HI). unfold commit. destruct HO as [HO|HO]; rewrite HO.
      - eexists. split; [reflexivity|]. split.
        + split; [|split; [|exact HI]].
          * apply tree_create; [assumption|discriminate|apply HT|assumption|]. constructor; [assumption|constructor].
          * unfold is_group. cbn [with_file s_file]. rewrite set_obj_other; [exact HC|]. intro E.
            unfold is_group in HC. change (s_cwd x = [tn]) in E. rewrite E in HC. congruence.
        + split; [reflexivity|]. intros p Hp. apply (kept_object _ _ [tn] (Some (NamedType t))); [apply set_obj_spec|assumption].
      - exists x. split; [reflexivity|]. split; [assumption|]. split; [reflexivity|]. intros; apply kept_refl.
    Qed.
    Lemma complex_name_proper b : proper (complex_name b).
    Proof.
      assert (K : forall s, tokens s = [s] -> s <> "."%string -> proper s).
      { intros s H1 H2. split; [intros ->; discriminate|]. split; [assumption|]. intros a c ->.
        assert (L : forall a c, length (tokens (a ++ String "/" c)) = 1 -> forall t, In t (tokens (a ++ String "/" c)) -> String.length t < String.length (a ++ String "/" c)).
        { clear. intros a c _ t Ht.
          assert (G : forall s t, In t (pieces s) -> String.length t + (length (pieces s) - 1) <= String.length s).
          { clear. induction s as [|x s IH]; intros t Ht; cbn in *.
            - destruct Ht as [<-|[]]. cbn. lia.
            - destruct (Ascii.eqb x slash).
              + cbn in *. destruct Ht as [<-|Ht].
                * assert (Hp : exists u, In u (pieces s)) by (destruct s; cbn; [|destruct (Ascii.eqb a slash); [|destruct (pieces s)]]; eexists; left; reflexivity).
                  destruct Hp as [u Hu]. specialize (IH u Hu). cbn. lia.
                * specialize (IH t Ht). lia.
              + destruct (pieces s) as [|u ps] eqn:E.
                * destruct Ht as [<-|[]]. cbn. lia.
                * cbn in *. destruct Ht as [<-|Ht]; [specialize (IH u (or_introl eq_refl)); cbn; lia|specialize (IH t (or_intror Ht)); cbn in *; lia]. }
          assert (P2 : forall a c, 2 <= length (pieces (a ++ String "/" c))).
          { clear. induction a as [|x a IH]; intro c; cbn.
            - assert (Hp : pieces c <> []) by (destruct c; cbn; [|destruct (Ascii.eqb a slash); [|destruct (pieces c)]]; discriminate).
              destruct (pieces c); [contradiction|cbn; lia].
            - destruct (Ascii.eqb x slash); cbn; [specialize (IH c); lia|]. specialize (IH c). destruct (pieces (a ++ String "/" c)); cbn in *; lia. }
          unfold tokens in Ht. apply filter_In in Ht. destruct Ht as [Ht _]. specialize (G _ _ Ht). specialize (P2 a c). lia. }
        specialize (L a c). rewrite H1 in L. specialize (L eq_refl _ (or_introl eq_refl)). lia. }
      destruct b; apply K; try reflexivity; discriminate.
    Qed.

    Lemma put_ok v s trunc x p : good x -> denotes (s_cwd x) s p -> may_write (s_file x) p trunc -> value_ok real v -> types_ok (s_file x) v p ->
      exists x1 d, put dot e real v s trunc x = Ok x1 /\ stored v = Val d /\ good x1 /\ s_cwd x1 = s_cwd x /\
        obj (s_file x1) p = Some (Dataset d) /\ (forall a, att (s_file x1) p a = None) /\
        forall q, q <> p -> (forall t, ~ names_type v q t) -> kept (s_file x) (s_file x1) q.
    Proof.
      intros HG HD HM HV HTy.
      assert (W : forall k d, exists x1, write dot k s d trunc x = Ok x1 /\ good x1 /\ s_cwd x1 = s_cwd x /\
        obj (s_file x1) p = Some (Dataset d) /\ (forall a, att (s_file x1) p a = None) /\
        forall q, q <> p -> (forall t, ~ names_type v q t) -> kept (s_file x) (s_file x1) q).
      { intros k d. destruct (write_ok dot k s d trunc x p HG HD HM) as (F & E & G1 & (W1 & W2 & W3)).
        exists (with_file x F). split; [exact E|]. split; [exact G1|]. split; [reflexivity|]. split; [exact W1|]. split; [exact W2|].
        intros q Hq _. now apply W3. }
      assert (WT : forall k b dims elts, (forall q t, names_type v q t <-> q = [complex_name b] /\ t = complex_t (width b)) ->
        exists x1, write_typed dot k (complex_name b) (complex_t (width b)) s dims elts trunc x = Ok x1 /\ good x1 /\ s_cwd x1 = s_cwd x /\
        obj (s_file x1) p = Some (Dataset (mkData (complex_t (width b)) dims elts)) /\ (forall a, att (s_file x1) p a = None) /\
        forall q, q <> p -> (forall t, ~ names_type v q t) -> kept (s_file x) (s_file x1) q).
      { intros k b dims elts HN. destruct (HTy [complex_name b] (complex_t (width b))) as [Hpq HO]; [now apply HN|].
        destruct (commit_ok (complex_name b) (complex_t (width b)) x HG (complex_name_proper b) HO) as (y & Ey & Gy & Cy & Ky).
        unfold write_typed. rewrite Ey. cbn [obind fst snd]. rewrite <- Cy in HD.
        assert (HM' : may_write (s_file y) p trunc).
        { destruct HM as [M1 M2]. split.
          - destruct (list_eq_dec string_dec (removelast p) [complex_name b]) as [E|E].
            + unfold is_group in M1. rewrite E in M1. destruct HO as [HO|HO]; congruence.
            + unfold is_group. destruct (Ky _ E) as [-> _]. exact M1.
          - destruct (Ky _ Hpq) as [-> _]. exact M2. }
        destruct (write_ok dot k s (mkData (complex_t (width b)) dims elts) trunc y p Gy HD HM') as (F & E & G1 & (W1 & W2 & W3)).
        exists (with_file y F). split; [exact E|]. split; [exact G1|]. split; [exact Cy|]. split; [exact W1|]. split; [exact W2|].
        intros q Hq Hn. apply (kept_trans _ (s_file y)); [|now apply W3]. apply Ky. intros ->. apply (Hn (complex_t (width b))). now apply HN. }
      destruct v as [t v|t vs|t n1 rows|cs|b re im|b vs|w n v|w n vs]; cbn [put stored].
      - destruct (W KScalar (data_scalar t v)) as (x1 & H). exists x1, (data_scalar t v). destruct H as (H1 & H2). now split; [|split].
      - destruct (W KArray (data_array t vs)) as (x1 & H). exists x1, (data_array t vs). destruct H as (H1 & H2). now split; [|split].
      - set (d := data_array2 t (length rows) n1 _). destruct (W KArray d) as (x1 & H). exists x1, d. destruct H as (H1 & H2). now split; [|split].
      - destruct (W KString (data_string cs)) as (x1 & H). exists x1, (data_string cs). destruct H as (H1 & H2). now split; [|split].
      - destruct (WT KScalar b [] [[re; im]]) as (x1 & H); [reflexivity|]. exists x1, (mkData (complex_t (width b)) [] [[re; im]]). destruct H as (H1 & H2). now split; [|split].
      - set (es := map (fun c : N * N => [fst c; snd c]) vs). destruct (WT KArray b [length vs] es) as (x1 & H); [reflexivity|].
        exists x1, (mkData (complex_t (width b)) [length vs] es). destruct H as (H1 & H2). now split; [|split].
      - destruct (value_stored _ HV) as [d Hd]. cbn [stored] in Hd. unfold write_oscalar. rewrite Hd.
        destruct (W KArray d) as (x1 & H). exists x1, d. destruct H as (H1 & H2). now split; [|split].
      - destruct (value_stored _ HV) as [d Hd]. cbn [stored] in Hd. unfold write_oscalars. rewrite Hd.
        destruct (W KArray d) as (x1 & H). exists x1, d. destruct H as (H1 & H2). now split; [|split].
    Qed.

    Lemma real_size : cty_size (real_t real) = real.
    Proof. destruct Hreal as [->| ->]; reflexivity. Qed.
    Lemma real_is : (if real =? 4 then TFloat else TDouble) = real_t real.
    Proof. reflexivity. Qed.
    Lemma floats_ok x s p ws : good x -> denotes (s_cwd x) s p -> obj (s_file x) p = Some (Dataset (data_array (real_t real) ws)) ->
      floats dot conv real real s x = Val ws.
    Proof.
      intros HG HD HO. unfold floats. rewrite real_is. unfold rd_array. rewrite (find_ok x s p _ HG HD HO). cbn [bind].
      rewrite check_ok by reflexivity. cbn [bind data_array d_dims d_elts length]. rewrite Nat.eqb_refl. cbn [bind].
      rewrite map_map, Nat.eqb_refl. f_equal. cbn. apply map_id.
    Qed.

    Lemma get_ok old v s x p d : good x -> denotes (s_cwd x) s p -> obj (s_file x) p = Some (Dataset d) -> stored v = Val d -> value_ok real v ->
      get dot e conv real old (type_of v) s x = Val v.
    Proof.
      intros HG HD HO HS HV. pose proof (find_ok x s p d HG HD HO) as HF.
      destruct v as [t v|t vs|t n1 rows|cs|b re im|b vs|w n v|w n vs]; cbn [type_of get stored] in *.
      - injection HS as <-. unfold rd. rewrite HF. cbn [bind]. now rewrite check_ok by reflexivity.
      - injection HS as <-. unfold rd_array. rewrite HF. cbn [bind]. rewrite check_ok by reflexivity. cbn. rewrite map_map. cbn. now rewrite map_id.
      - injection HS as <-. unfold rd_array2. rewrite HF. cbn [bind]. rewrite check_ok by reflexivity. cbn [bind data_array2 d_dims d_elts].
        do 2 f_equal. now apply rows_read.
      - injection HS as <-. unfold rd_string. rewrite HF. cbn [bind]. unfold text, data_string. cbn [d_ty t_cls cls_eqb d_elts].
        rewrite c_str_ok by exact HV. reflexivity.
      - injection HS as <-. unfold rd_complex. rewrite HF. cbn [bind]. now destruct b.
      - injection HS as <-. unfold rd_complexes. rewrite HF. cbn [bind d_ty complex_t t_cls t_base cls_eqb andb d_dims d_elts length].
        rewrite !Nat.eqb_refl. cbn [bind]. rewrite map_map. cbn. do 2 f_equal. rewrite <- (map_id vs) at 2. apply map_ext. now intros [? ?].
      - destruct HV as (H1 & H2 & [m H3] & H4 & H5). rewrite (oscalar_stored w n m) in HS by assumption. injection HS as <-.
        cbn [map concat] in *. rewrite app_nil_r in *.
        unfold rd_oscalar. rewrite HF. cbn [bind data_array d_ty ty_of t_size d_dims]. rewrite real_size, unimage_length.
        assert (E : negb ((real =? 4) || (real =? 8)) = false) by (destruct Hreal as [->| ->]; reflexivity). rewrite E.
        rewrite H3, Nat.eqb_refl. cbn [negb]. rewrite (floats_ok x s p _ HG HD HO). cbn [bind]. rewrite Nat.ltb_irrefl.
        rewrite image_unimage; [|rewrite image_length; nia|apply image_ok].
        rewrite <- (app_nil_r (image e w v)). rewrite unimage_image; [reflexivity|]. now split.
      - destruct HV as (H1 & H2 & [m H3] & H4 & H5). rewrite (oscalar_stored w n m) in HS by assumption. injection HS as <-.
        destruct (whole _ _ _ H2 H1 H3) as [_ Hm].
        set (parts := map (A := list N) (B := list N) (fun v => unimage e real m (image e w v)) vs) in *.
        assert (HP : Forall (fun l => length l = m) parts).
        { apply Forall_forall. intros l Hl. apply in_map_iff in Hl. destruct Hl as (u & <- & _). apply unimage_length. }
        assert (HLp : length parts = length vs) by apply map_length.
        assert (HL : length (concat parts) = length vs * m) by exact (eq_trans (concat_length_all parts m HP) (f_equal (fun k => k * m) HLp)).
        assert (Hvs : 0 < length vs) by (destruct vs; [contradiction|cbn; lia]).
        unfold rd_oscalars. rewrite HF. cbn [bind data_array d_ty ty_of t_size d_dims]. rewrite real_size, HL.
        assert (E : negb ((real =? 4) || (real =? 8)) = false) by (destruct Hreal as [->| ->]; reflexivity). rewrite E.
        replace (length vs * m * real) with (length vs * (n * w)) by nia.
        rewrite Nat.mod_mul by nia. cbn [Nat.eqb negb]. rewrite Nat.div_mul by nia.
        assert (E0 : (length vs =? 0) = false) by (apply Nat.eqb_neq; lia). rewrite E0.
        assert (EO : length vs * m / length vs = m) by (rewrite Nat.mul_comm; apply Nat.div_mul; lia). rewrite EO.
        rewrite (floats_ok x s p _ HG HD HO). cbn [bind].
        assert (E1 : (m * length vs * real <? (length vs - 1) * m * real + n * w) = false).
        { apply Nat.ltb_ge. rewrite H3. nia. }
        rewrite E1. cbn [bind]. do 2 f_equal. rewrite <- (map_nth_seq vs []) at 2. apply map_ext_in. intros i Hi. apply in_seq in Hi.
        rewrite skipn_concat by (try assumption; lia). rewrite (skipn_nth (A := list N) _ i (unimage e real m (image e w []))) by lia.
        cbn [concat]. rewrite image_app. unfold parts at 1. rewrite (map_nth (A := list N) (B := list N) (fun v => unimage e real m (image e w v))).
        assert (HI : object_ok w n (nth i vs [])) by (apply (proj1 (Forall_forall _ _) H4), nth_In; lia).
        rewrite image_unimage; [|rewrite image_length; destruct HI as [-> _]; nia|apply image_ok].
        apply unimage_image. exact HI.
    Qed.

    (** Attributes. *)
    Lemma put_att_ok v s a trunc x p : good x -> denotes (s_cwd x) s p -> obj (s_file x) p <> None ->
      (att (s_file x) p a = None \/ trunc = true) -> value_ok real v ->
      match v with
      | VScalar t _ => cty_size t <= att_max
      | VArray t vs => cty_size t * length vs <= att_max /\ (N.of_nat (cty_size t * length vs) <= 65536)%N
      | VString cs => S (length cs) <= att_max /\ (N.of_nat (S (length cs)) <= 65536)%N
      | _ => False
      end ->
      exists F d, put_att dot att_max v s a trunc x = Ok (with_file x F) /\ stored v = Val d /\ good (with_file x F) /\
        with_att (s_file x) F p a (Some d).
    Proof.
      intros HG HD HO HA HV HB. destruct v as [t v|t vs|t n1 rows|cs|b re im|b vs|w n v|w n vs]; try contradiction; cbn [put_att stored].
      - destruct (write_att_ok dot att_max false s a (data_scalar t v) trunc x p HG HD HO HA) as (F & H1 & H2 & H3).
        + unfold bytes. cbn. lia.
        + discriminate.
        + exists F, (data_scalar t v). split; [exact H1|]. split; [reflexivity|]. split; [exact H2|exact H3].
      - assert (EB : bytes (data_array t vs) = cty_size t * length vs) by (unfold bytes; cbn; now rewrite map_length).
        destruct (write_att_ok dot att_max true s a (data_array t vs) trunc x p HG HD HO HA) as (F & H1 & H2 & H3).
        + rewrite EB. apply HB.
        + intros _. rewrite EB. apply HB.
        + exists F, (data_array t vs). split; [exact H1|]. split; [reflexivity|]. split; [exact H2|exact H3].
      - assert (EB : bytes (data_string cs) = S (length cs)) by (unfold bytes; cbn; lia).
        destruct (write_att_ok dot att_max true s a (data_string cs) trunc x p HG HD HO HA) as (F & H1 & H2 & H3).
        + rewrite EB. apply HB.
        + intros _. rewrite EB. apply HB.
        + exists F, (data_string cs). split; [exact H1|]. split; [reflexivity|]. split; [exact H2|exact H3].
    Qed.
    Lemma get_att_ok old v s a x p d : good x -> denotes (s_cwd x) s p -> att (s_file x) p a = Some d -> stored v = Val d -> value_ok real v ->
      match v with VScalar _ _ | VArray _ _ | VString _ => True | _ => False end ->
      get_att dot old (type_of v) s a x = Val v.
    Proof.
      intros HG HD HO HS HV HK. pose proof (find_att_ok x s p a d HG HD HO) as HF.
      destruct v as [t v|t vs|t n1 rows|cs|b re im|b vs|w n v|w n vs]; try contradiction; cbn [type_of get_att stored] in *.
      - injection HS as <-. unfold rd_att. rewrite HF. cbn [bind]. now rewrite check_ok by reflexivity.
      - injection HS as <-. unfold rd_att_array. rewrite HF. cbn [bind]. rewrite check_ok by reflexivity. cbn. rewrite map_map. cbn. now rewrite map_id.
      - injection HS as <-. unfold rd_att_string. rewrite HF. cbn [bind]. unfold text, data_string. cbn [d_ty t_cls cls_eqb d_elts].
        rewrite c_str_ok by exact HV. reflexivity.
    Qed.
  End V.
End P.

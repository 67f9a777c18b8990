(** C85: HDF5 files are trees of named objects. *)
From Coq Require Import String Ascii List Arith NArith Bool Lia.
From Verif Require Import Base CrcModel LatIoModel H5DirModel H5DirSpec H5DirProofs H5DirOps H5DirFrame H5DirVals.
Import ListNotations.
Local Open Scope nat_scope.
Local Notation length := List.length.

Section C85.
  Variables (dot : bool) (att_max : nat) (e : endian) (conv : nat -> nat -> N -> N) (real : nat).

  (** ** Navigation *)

  (** A name of another group leads there. *)
  Theorem C85_cd x s p : good x -> s <> ".."%string -> denotes (s_cwd x) s p -> is_group (s_file x) p -> p <> s_cwd x ->
    exists y, ends (fun fuel => cd fuel s x) (Ok y) /\ good y /\ s_file y = s_file x /\ s_cwd y = p.
  Proof.
    intros HG Hs HD Hp Hne. destruct (denotes_facts _ _ _ HD) as (_ & _ & _ & HA). exact (cd_group x s p HG Hs HA Hp Hne).
  Qed.
  Theorem C85_cd_root x : good x ->
    exists y, ends (fun fuel => cd fuel "/" x) (Ok y) /\ good y /\ s_file y = s_file x /\ s_cwd y = [].
  Proof. apply cd_root. Qed.
  (** A name that is not the name of a group changes nothing; nor does the name pwd gives. *)
  Theorem C85_cd_missing x s p fuel : good x -> s <> ".."%string -> denotes (s_cwd x) s p -> ~ is_group (s_file x) p ->
    cd fuel s x = Ok x.
  Proof.
    intros HG Hs HD Hp. destruct (denotes_facts _ _ _ HD) as (_ & _ & _ & HA). unfold cd.
    destruct (String.eqb_spec s ".."); [contradiction|]. destruct (String.eqb s (pwd x)); [reflexivity|].
    unfold h5_gopen. rewrite HA. unfold is_group in Hp. destruct (obj (s_file x) p) as [[|d|t]|]; try reflexivity. now contradiction Hp.
  Qed.
  Theorem C85_cd_here x fuel : good x -> exists y, cd fuel (pwd x) x = Ok y /\ s_file y = s_file x /\ s_cwd y = s_cwd x.
  Proof.
    intro HG. exists x. split; [|now split]. unfold cd. destruct (String.eqb_spec (pwd x) "..") as [E|_].
    - exfalso. unfold pwd, render in E. destruct (s_cwd x); cbn in E; discriminate.
    - now rewrite String.eqb_refl.
  Qed.
  (** From anywhere the name pwd gave leads back, as long as the group is there. *)
  Theorem C85_return x y : good x -> good y -> is_group (s_file y) (s_cwd x) ->
    exists z, ends (fun fuel => cd fuel (pwd x) y) (Ok z) /\ good z /\ s_file z = s_file y /\ s_cwd z = s_cwd x.
  Proof.
    intros HG HGy HI. pose proof (good_proper _ HG) as HP.
    destruct (list_eq_dec string_dec (s_cwd x) (s_cwd y)) as [E|E].
    - assert (EP : pwd x = pwd y) by (unfold pwd; now rewrite E). exists y. split; [|split; [assumption|split; [reflexivity|congruence]]].
      exists 0. intros fuel _. rewrite EP. unfold cd. destruct (String.eqb_spec (pwd y) "..") as [E'|_]; [|now rewrite String.eqb_refl].
      exfalso. unfold pwd, render in E'. destruct (s_cwd y); cbn in E'; discriminate.
    - apply cd_group; try assumption.
      + intro E'. unfold pwd, render in E'. destruct (s_cwd x); cbn in E'; discriminate.
      + apply abs_render; assumption.
  Qed.
  (** pop, and cd(".."), lead to the group above. *)
  Theorem C85_pop x : good x ->
    exists y, pop x = Ok y /\ (forall fuel, cd fuel ".." x = Ok y) /\ good y /\ s_file y = s_file x /\ s_cwd y = removelast (s_cwd x).
  Proof.
    intro HG. destruct (pop_ok x HG) as (y & E & G & F & C & _). exists y. split; [assumption|].
    split; [intro fuel; exact E|]. split; [assumption|]. now split.
  Qed.
  (** push makes the groups that are missing and goes there; mkdir makes them and stays. *)
  Theorem C85_push x s p : good x -> denotes (s_cwd x) s p -> open_way (s_file x) p ->
    exists y, ends (fun fuel => push dot fuel s x) (Ok y) /\ good y /\ s_cwd y = p /\ with_groups (s_file x) (s_file y) p.
  Proof.
    intros HG HD HO. destruct (push_ok dot x s p HG HD) as (y & q & E & G & C & _ & W & Q). specialize (Q HO). subst q.
    exists y. rewrite Q in *. split; [assumption|]. split; [assumption|]. now split.
  Qed.
  Theorem C85_mkdir x s p : good x -> denotes (s_cwd x) s p -> open_way (s_file x) p ->
    exists y, ends (fun fuel => mkdir dot fuel s x) (Ok y) /\ good y /\ s_cwd y = s_cwd x /\ with_groups (s_file x) (s_file y) p.
  Proof.
    intros HG HD HO. destruct (mkdir_ok dot x s p HG HD) as (y & q & E & G & C & _ & W & Q). specialize (Q HO). subst q.
    exists y. split; [assumption|]. split; [assumption|]. now split.
  Qed.
  (** objectExists tells what is there. *)
  Theorem C85_exists x s p : good x -> denotes (s_cwd x) s p ->
    exists b, object_exists dot (s_file x) (s_cwd x) s = Some b /\ (b = true <-> obj (s_file x) p <> None).
  Proof.
    intros HG HD. rewrite (exists_ok dot _ _ _ _ (proj1 HG) HD). eexists. split; [reflexivity|]. destruct (obj (s_file x) p); split; congruence.
  Qed.

  (** ** Writing and reading *)

  (** A later state of the file: a program ran that did not touch the object, and perhaps the file was
      closed and opened again. *)
  Definition later (x : st) (p : path) (z : st) : Prop :=
    exists fuel cs y, Forall spelled cs /\ untouched (exec dot att_max fuel) cs x p /\
      run dot att_max fuel cs x = Ok y /\ s_file z = s_file y /\ good z.
  Definition later_att (x : st) (p : path) (a : string) (z : st) : Prop :=
    exists fuel cs y, Forall spelled cs /\ untouched_att (exec dot att_max fuel) cs x p a /\
      run dot att_max fuel cs x = Ok y /\ s_file z = s_file y /\ good z.

  (** Programs keep every object they do not name, whatever else they do and however they end. *)
  Theorem C85_kept x p fuel cs : good x -> obj (s_file x) p <> None -> Forall spelled cs -> untouched (exec dot att_max fuel) cs x p ->
    match run dot att_max fuel cs x with
    | Ok y => good y /\ kept (s_file x) (s_file y) p
    | Stop F => tree F /\ kept (s_file x) F p
    | _ => True
    end.
  Proof. intros. now apply run_any. Qed.
  Lemma later_kept x p z : good x -> obj (s_file x) p <> None -> later x p z -> kept (s_file x) (s_file z) p.
  Proof.
    intros HG HO (fuel & cs & y & H1 & H2 & H3 & H4 & _). pose proof (C85_kept x p fuel cs HG HO H1 H2) as H. rewrite H3 in H. rewrite H4. apply H.
  Qed.

  Section Values.
    Hypothesis Hreal : real = 4 \/ real = 8.

    (** A value written is there and nothing else changed. *)
    Theorem C85_write x s p v trunc : good x -> denotes (s_cwd x) s p -> may_write (s_file x) p trunc ->
      value_ok real v -> types_ok (s_file x) v p ->
      exists x1, put dot e real v s trunc x = Ok x1 /\ good x1 /\ s_cwd x1 = s_cwd x /\
        (exists d, obj (s_file x1) p = Some (Dataset d)) /\
        forall q, q <> p -> (forall t, ~ names_type v q t) -> kept (s_file x) (s_file x1) q.
    Proof.
      intros HG HD HM HV HT. destruct (put_ok dot e conv real Hreal v s trunc x p HG HD HM HV HT) as (x1 & d & H1 & H2 & H3 & H4 & H5 & H6 & H7).
      exists x1. split; [assumption|]. split; [assumption|]. split; [assumption|]. split; [now exists d|assumption].
    Qed.
    (** It is read back, at any later time and by any name of the object. *)
    Theorem C85_round_trip x s p v trunc x1 : good x -> denotes (s_cwd x) s p -> may_write (s_file x) p trunc ->
      value_ok real v -> types_ok (s_file x) v p -> put dot e real v s trunc x = Ok x1 ->
      forall z s' old, later x1 p z -> denotes (s_cwd z) s' p -> get dot e conv real old (type_of v) s' z = Val v.
    Proof.
      intros HG HD HM HV HT HP z s' old HL HD'.
      destruct (put_ok dot e conv real Hreal v s trunc x p HG HD HM HV HT) as (x1' & d & H1 & H2 & H3 & H4 & H5 & H6 & H7).
      rewrite HP in H1. injection H1 as <-.
      assert (HO : obj (s_file x1) p <> None) by (rewrite H5; discriminate).
      pose proof (later_kept x1 p z H3 HO HL) as [HK _]. rewrite H5 in HK.
      destruct HL as (_ & _ & _ & _ & _ & _ & _ & Gz).
      exact (get_ok dot e conv real Hreal old v s' z p d Gz HD' HK H2 HV).
    Qed.
    (** Reading it as elements of another type, or with another number of extents, stops the program. *)
    Theorem C85_types x s p v trunc x1 : good x -> denotes (s_cwd x) s p -> may_write (s_file x) p trunc ->
      value_ok real v -> types_ok (s_file x) v p -> put dot e real v s trunc x = Ok x1 ->
      forall z s' old y, later x1 p z -> denotes (s_cwd z) s' p ->
        (exists a b, elements y = Some a /\ elements (type_of v) = Some b /\ (a <> b \/ rank y <> rank (type_of v) /\ 0 < rank y)) ->
        get dot e conv real old y s' z = Abort.
    Proof.
      intros HG HD HM HV HT HP z s' old y HL HD' (a & b & Ha & Hb & Hab).
      destruct (put_ok dot e conv real Hreal v s trunc x p HG HD HM HV HT) as (x1' & d & H1 & H2 & H3 & H4 & H5 & H6 & H7).
      rewrite HP in H1. injection H1 as <-.
      assert (HO : obj (s_file x1) p <> None) by (rewrite H5; discriminate).
      pose proof (later_kept x1 p z H3 HO HL) as [HK _]. rewrite H5 in HK.
      destruct HL as (_ & _ & _ & _ & _ & _ & _ & Gz).
      pose proof (find_ok dot z s' p d Gz HD' HK) as HF. clear - Ha Hb Hab H2 HF.
      assert (CN : forall t t' D, t <> t' -> d_ty D = ty_of t' -> check t D = Abort).
      { intros t t' D Hn E. unfold check. rewrite E. destruct t, t'; try contradiction; reflexivity. }
      destruct v as [t v|t vs|t n1 rows|cs|bb re im|bb vs|w n v|w n vs]; try discriminate;
        cbn [type_of elements] in Hb; injection Hb as <-; cbn [stored] in H2; injection H2 as <-;
        destruct y as [t'|t'|t'| |b'|b'|w' n'|w' n']; try discriminate;
        cbn [elements] in Ha; injection Ha as <-; cbn [get type_of rank] in *;
        unfold rd, rd_array, rd_array2, rd_string, rd_complex, rd_complexes; rewrite HF; cbn [bind]; try reflexivity;
        try (destruct Hab as [Hab|[Hab1 Hab2]]; [|exfalso; now apply Hab1 || lia]);
        try (rewrite (CN t' t) by (congruence || reflexivity); reflexivity);
        try (destruct t'; reflexivity); try (destruct t; reflexivity);
        try (destruct bb, b'; try reflexivity; now contradiction Hab);
        try (destruct bb, t'; reflexivity); try (destruct bb; reflexivity); try (exfalso; apply Hab; reflexivity).
      all: destruct Hab as [Hab|[Hab1 Hab2]]; [rewrite (CN t' t) by (congruence || reflexivity); reflexivity|].
      all: destruct t', t; reflexivity.
    Qed.
    (** Reading what is not a dataset stops the program. *)
    Theorem C85_missing x s p y old : good x -> denotes (s_cwd x) s p -> (forall d, obj (s_file x) p <> Some (Dataset d)) ->
      get dot e conv real old y s x = Abort.
    Proof.
      intros HG HD HO. pose proof (find_not dot x s p HG HD HO) as HF.
      destruct y; cbn [get]; unfold rd, rd_array, rd_array2, rd_string, rd_complex, rd_complexes, rd_oscalar, rd_oscalars; now rewrite HF.
    Qed.
    (** Without permission to replace, numbers, arrays, complex numbers and objects are not written over
        anything, nor ever over a group: the program stops and the file is as it was. *)
    Theorem C85_write_refused x s p v trunc : good x -> denotes (s_cwd x) s p -> value_ok real v ->
      (forall q t, names_type v q t -> obj (s_file x) q = Some (NamedType t)) ->
      (obj (s_file x) p <> None /\ trunc = false \/ obj (s_file x) p = Some Group) -> (forall cs, v <> VString cs) ->
      put dot e real v s trunc x = Stop (s_file x).
    Proof.
      intros HG HD HV HT HO Hs. destruct (denotes_facts _ _ _ HD) as (_ & _ & _ & HA).
      assert (W : forall k d, k <> KString -> write dot k s d trunc x = Stop (s_file x)).
      { intros k d Hk. unfold write. rewrite (exists_ok dot _ _ _ _ (proj1 HG) HD), HA.
        destruct HO as [[HO ->]|HO].
        - destruct (obj (s_file x) p); [|contradiction]. destruct k; try reflexivity. contradiction.
        - rewrite HO. destruct trunc, k; try reflexivity; contradiction. }
      assert (WT : forall k b dims elts, k <> KString -> (names_type v [complex_name b] (complex_t (width b))) ->
        write_typed dot k (complex_name b) (complex_t (width b)) s dims elts trunc x = Stop (s_file x)).
      { intros k b dims elts Hk Hn. unfold write_typed, commit. rewrite (HT _ _ Hn). cbn [obind fst snd]. now apply W. }
      destruct v as [t v|t vs|t n1 rows|cs|b re im|b vs|w n v|w n vs]; cbn [put].
      - now apply W.
      - now apply W.
      - now apply W.
      - now contradiction (Hs cs).
      - now apply WT.
      - now apply WT.
      - destruct (value_stored e conv real Hreal _ HV) as [d Hd]. cbn [stored] in Hd. unfold write_oscalar. rewrite Hd. now apply W.
      - destruct (value_stored e conv real Hreal _ HV) as [d Hd]. cbn [stored] in Hd. unfold write_oscalars. rewrite Hd. now apply W.
    Qed.

    (** An array or an object is not written into a group that is not there: the program stops. *)
    Theorem C85_write_no_group x s p v trunc : good x -> denotes (s_cwd x) s p -> value_ok real v -> ~ is_group (s_file x) (removelast p) ->
      (exists t vs, v = VArray t vs) \/ (exists t n1 rows, v = VArray2 t n1 rows) \/ (exists w n o, v = VObject w n o) \/ (exists w n os, v = VObjects w n os) ->
      put dot e real v s trunc x = Stop (s_file x).
    Proof.
      intros HG HD HV HO HK. destruct (denotes_facts _ _ _ HD) as (Hn & HF & Hp & HA).
      assert (Hne : p <> []) by (rewrite Hp; destruct (leading s), (s_cwd x), (tokens s); cbn; congruence).
      assert (HN : obj (s_file x) p = None).
      { destruct (obj (s_file x) p) eqn:E; [|reflexivity]. exfalso. apply HO. destruct HG as ((_ & T2 & _) & _).
        apply (T2 _ (last p ""%string)). rewrite <- app_removelast_last by assumption. rewrite E. discriminate. }
      assert (W : forall d, write dot KArray s d trunc x = Stop (s_file x)).
      { intros d. unfold write. rewrite (exists_ok dot _ _ _ _ (proj1 HG) HD), HA, HN, (last_proper _ Hn HF).
        assert (EC : h5_create (s_file x) p (Dataset d) = None).
        { unfold is_group in HO. unfold h5_create. destruct p; [contradiction|]. destruct (obj (s_file x) (removelast (s0 :: p))) as [[| |]|]; try reflexivity. now contradiction HO. }
        now rewrite EC. }
      destruct HK as [(t & vs & ->)|[(t & n1 & rows & ->)|[(w & n & o & ->)|(w & n & os & ->)]]]; cbn [put]; try apply W.
      - destruct (value_stored e conv real Hreal _ HV) as [d Hd]. cbn [stored] in Hd. unfold write_oscalar. rewrite Hd. apply W.
      - destruct (value_stored e conv real Hreal _ HV) as [d Hd]. cbn [stored] in Hd. unfold write_oscalars. rewrite Hd. apply W.
    Qed.
    (** deleteAttribute removes one attribute, deleteAllAttributes those of one object. *)
    Theorem C85_delete x s p a : denotes (s_cwd x) s p ->
      exists y z, del_att s a x = Ok y /\ s_cwd y = s_cwd x /\ with_att (s_file x) (s_file y) p a None /\
        del_atts s x = Ok z /\ s_cwd z = s_cwd x /\ (forall q, obj (s_file z) q = obj (s_file x) q) /\
        (forall b, att (s_file z) p b = None) /\ forall q b, q <> p -> att (s_file z) q b = att (s_file x) q b.
    Proof.
      intros HD. destruct (denotes_facts _ _ _ HD) as (_ & _ & _ & HA). unfold del_att, del_atts. rewrite HA. eexists. eexists.
      split; [reflexivity|]. split; [reflexivity|]. split; [apply set_att_spec|]. split; [reflexivity|]. split; [reflexivity|].
      split; [reflexivity|]. cbn [with_file s_file att]. split.
      - intro b. now rewrite peq_refl.
      - intros q b Hq. now rewrite peq_false.
    Qed.

    (** Attributes: numbers, arrays and strings of up to 64 kB that HDF5 has room for. *)
    Definition att_ok (v : value) : Prop :=
      match v with
      | VScalar t _ => cty_size t <= att_max
      | VArray t vs => cty_size t * length vs <= att_max /\ (N.of_nat (cty_size t * length vs) <= 65536)%N
      | VString cs => S (length cs) <= att_max /\ (N.of_nat (S (length cs)) <= 65536)%N
      | _ => False
      end.
    Theorem C85_attribute x s p a v trunc : good x -> denotes (s_cwd x) s p -> obj (s_file x) p <> None ->
      (att (s_file x) p a = None \/ trunc = true) -> value_ok real v -> att_ok v ->
      exists x1, put_att dot att_max v s a trunc x = Ok x1 /\ good x1 /\ s_cwd x1 = s_cwd x /\
        (exists d, with_att (s_file x) (s_file x1) p a (Some d)) /\
        forall z s' old, later_att x1 p a z -> denotes (s_cwd z) s' p -> get_att dot old (type_of v) s' a z = Val v.
    Proof.
      intros HG HD HO HA HV HB.
      destruct (put_att_ok dot att_max e conv real Hreal v s a trunc x p HG HD HO HA HV HB) as (F & d & H1 & H2 & H3 & H4).
      exists (with_file x F). split; [assumption|]. split; [assumption|]. split; [reflexivity|]. split; [now exists d|].
      intros z s' old (fuel & cs & y & L1 & L2 & L3 & L4 & Gz) HD'.
      assert (HN : att (s_file (with_file x F)) p a = Some d) by apply H4.
      assert (HN' : att (s_file (with_file x F)) p a <> None) by (rewrite HN; discriminate).
      pose proof (run_att dot att_max fuel cs _ p a H3 L1 HN' L2) as HR. rewrite L3 in HR. destruct HR as [_ HR]. rewrite HN, <- L4 in HR.
      apply (get_att_ok dot e real old v s' a z p d Gz HD' HR H2 HV). destruct v; try contradiction; exact I.
    Qed.
    (** An attribute that is there is not replaced without permission; one that is not there is not read. *)
    Theorem C85_attribute_refused x s p a v : good x -> denotes (s_cwd x) s p -> att (s_file x) p a <> None -> att_ok v ->
      put_att dot att_max v s a false x = Stop (s_file x).
    Proof.
      intros HG HD HA HB. destruct (denotes_facts _ _ _ HD) as (_ & _ & _ & HAb).
      assert (HO : obj (s_file x) p <> None) by (destruct HG as ((_ & _ & _ & T4) & _); exact (T4 p a HA)).
      assert (W : forall l d, write_att dot att_max l s a d false x = Stop (s_file x)).
      { intros l d. unfold write_att. rewrite (exists_ok dot _ _ _ _ (proj1 HG) HD), HAb.
        destruct (obj (s_file x) p); [|contradiction]. destruct (att (s_file x) p a); [reflexivity|contradiction]. }
      destruct v; try contradiction; apply W.
    Qed.
    Theorem C85_attribute_missing x s p a y old : good x -> denotes (s_cwd x) s p -> att (s_file x) p a = None ->
      (exists t, y = YScalar t) \/ (exists t, y = YArray t) \/ y = YString -> get_att dot old y s a x = Abort.
    Proof.
      intros HG HD HO HY. pose proof (find_att_not dot x s p a HG HD HO) as HF.
      destruct HY as [[t ->]|[[t ->]| ->]]; cbn [get_att]; unfold rd_att, rd_att_array, rd_att_string; now rewrite HF.
    Qed.
  End Values.
End C85.

(** A case: from an empty file push "a/b", write a number, an attribute and, in another group, a string, go
    somewhere else and read all of it. *)
Definition empty_file : file := mkFile (fun p => match p with [] => Some Group | _ => None end) (fun _ _ => None).
Definition start : st := mkS empty_file (mkG 0 []) 1.
Example C85_start_good : good start.
Proof.
  split; [|split; [reflexivity|cbn; lia]]. split; [reflexivity|]. split; [|split].
  - intros p c H. destruct p; contradiction H; reflexivity.
  - intros [|c p] H; [constructor|now contradiction H].
  - intros p a H. now contradiction H.
Qed.
Example C85_names : denotes ["a"%string] "b//c/" ["a"; "b"; "c"]%string /\ denotes ["a"%string] "/b" ["b"%string].
Proof.
  assert (K : forall c, c = "b"%string \/ c = "c"%string -> proper c).
  { intros c [->| ->]; (split; [discriminate|]; split; [discriminate|]; intros [|x a] b H; cbn in H; [discriminate|]; injection H as _ H; now destruct a). }
  split.
  - exists ["b"; "c"]%string. split; [|right; split; [discriminate|reflexivity]].
    change "b//c/"%string with (("b" ++ String "/" (String "/" "c")) ++ "/")%string.
    apply sp_trail, sp_cons; [apply K; tauto|]. apply sp_lead, sp_one, K; tauto.
  - exists ["b"%string]. split; [|left; split; [now exists "b"%string|reflexivity]]. apply sp_lead, sp_one, K; tauto.
Qed.
Definition prog : list cmd :=
  [Push "a/b"; Write KScalar "n" (data_scalar TInt 7) false; WriteAtt false "n" "u" (data_scalar TDouble 9) false;
   Mkdir "/c"; Write KString "/c/t" (data_string [65; 66]%N) false; ChDir "/c"; Pop].
Example C85_case :
  match run true 4000 5 prog start with
  | Ok y => (s_cwd y, pwd y, get true LittleE (fun _ _ v => v) 8 (0, 0)%N (YScalar TInt) "a/b/n" y, get_att true (0, 0)%N (YScalar TDouble) "/a//b/n" "u" y,
             get true LittleE (fun _ _ v => v) 8 (0, 0)%N YString "c/t" y, get true LittleE (fun _ _ v => v) 8 (0, 0)%N (YScalar TUInt) "a/b/n" y)
            = ([], "/"%string, Val (VScalar TInt 7), Val (VScalar TDouble 9), Val (VString [65; 66]%N), Abort)
  | _ => False
  end.
Proof. vm_compute. reflexivity. Qed.

Print Assumptions C85_cd.
Print Assumptions C85_return.
Print Assumptions C85_push.
Print Assumptions C85_mkdir.
Print Assumptions C85_kept.
Print Assumptions C85_write.
Print Assumptions C85_round_trip.
Print Assumptions C85_types.
Print Assumptions C85_write_refused.
Print Assumptions C85_attribute.

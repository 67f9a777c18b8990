(** C85: what is false of HDF5 files as trees of named objects. *)
From Coq Require Import String Ascii List Arith NArith Bool Lia.
From Verif Require Import Base CrcModel LatIoModel LatIoProofs H5DirModel H5DirSpec H5DirProofs H5DirOps H5DirFrame H5DirVals PropH5Dir.
Import ListNotations.
Local Open Scope nat_scope.
Local Notation length := List.length.

Lemma denotes_proper cwd s p : denotes cwd s p -> p <> [] /\ h5_abs cwd s = p.
Proof.
  intro HD. destruct (denotes_facts _ _ _ HD) as (Hn & _ & Hp & HA). split; [|assumption].
  rewrite Hp. destruct (leading s), cwd, (tokens s); cbn; congruence.
Qed.

Section C85.
  Variables (dot : bool) (att_max : nat) (e : endian) (conv : nat -> nat -> N -> N) (real : nat).

  (** cd to the working group by any name but the one pwd gives never returns. *)
  Theorem C85_cd_self_refuted x s : good x -> s_cwd x <> [] -> s = "."%string \/ denotes (s_cwd x) s (s_cwd x) -> s <> ".."%string -> s <> pwd x ->
    never_ends (fun fuel => cd fuel s x).
  Proof.
    intros HG Hc Hs Hd Hp. apply cd_self; try assumption. destruct Hs as [->|HD]; [|now apply denotes_proper in HD].
    unfold h5_abs. cbn. apply app_nil_r.
  Qed.
  (** The root group has no attributes: its name is not accepted. *)
  Theorem C85_root_attribute_refuted x v a trunc old y : att_ok att_max v -> (exists t, y = YScalar t) \/ (exists t, y = YArray t) \/ y = YString ->
    put_att dot att_max v "/" a trunc x = UB /\ get_att dot old y "/" a x = Undef.
  Proof.
    intros Hv HY. split; [destruct v; try contradiction; reflexivity|]. destruct HY as [[t ->]|[[t ->]| ->]]; reflexivity.
  Qed.
  (** A dataset of several numbers read as one number overruns it; likewise an attribute. *)
  Theorem C85_scalar_of_array_refuted x s p t vs old : good x -> denotes (s_cwd x) s p -> 2 <= length vs ->
    (obj (s_file x) p = Some (Dataset (data_array t vs)) -> get dot e conv real old (YScalar t) s x = Undef) /\
    (forall a, att (s_file x) p a = Some (data_array t vs) -> get_att dot old (YScalar t) s a x = Undef).
  Proof.
    intros HG HD HL. assert (HO : one [fst old] (data_array t vs) = Undef) by (unfold one; cbn; destruct vs as [|a [|b r]]; cbn in *; [lia|lia|reflexivity]). split.
    - intro H. cbn [get]. unfold rd. rewrite (find_ok dot x s p _ HG HD H). cbn [bind]. rewrite check_ok by reflexivity. cbn [bind]. now rewrite HO.
    - intros a H. cbn [get_att]. unfold rd_att. rewrite (find_att_ok dot x s p a _ HG HD H). cbn [bind]. rewrite check_ok by reflexivity. cbn [bind]. now rewrite HO.
  Qed.
  (** A string is read up to its first zero byte. *)
  Theorem C85_string_zero_refuted x s p cs rest trunc x1 : good x -> denotes (s_cwd x) s p -> may_write (s_file x) p trunc -> Forall (fun c => c <> 0%N) cs ->
    put dot e real (VString (cs ++ 0%N :: rest)) s trunc x = Ok x1 ->
    forall old, get dot e conv real old YString s x1 = Val (VString cs).
  Proof.
    intros HG HD HM HC HP old. cbn [put] in HP. destruct (write_ok dot KString s (data_string (cs ++ 0%N :: rest)) trunc x p HG HD HM) as (F & E & G1 & (W1 & _)).
    rewrite HP in E. injection E as ->. cbn [get]. unfold rd_string. rewrite (find_ok dot _ s p _ G1 HD W1). cbn [bind].
    unfold text, data_string. cbn [d_ty t_cls cls_eqb d_elts]. rewrite <- app_assoc. cbn [app]. now rewrite c_str_ok.
  Qed.
  (** A number, a string or a complex number written into a group that is not there is lost without a word;
      so is a string when the name is taken. *)
  Theorem C85_lost_refuted x s p t n cs trunc : good x -> denotes (s_cwd x) s p ->
    (obj (s_file x) (removelast p) <> Some Group ->
       put dot e real (VScalar t n) s trunc x = Ok x /\ put dot e real (VString cs) s trunc x = Ok x) /\
    (obj (s_file x) p <> None -> put dot e real (VString cs) s false x = Ok x).
  Proof.
    intros HG HD. destruct (denotes_proper _ _ _ HD) as [Hne HA]. destruct (denotes_facts _ _ _ HD) as (Hn & HF & _ & _).
    split.
    - intro HO. assert (HN : obj (s_file x) p = None).
      { destruct (obj (s_file x) p) eqn:E; [|reflexivity]. exfalso. apply HO. destruct HG as ((_ & T2 & _) & _).
        apply (T2 _ (last p ""%string)). rewrite <- app_removelast_last by assumption. rewrite E. discriminate. }
      assert (W : forall k d, k <> KArray -> write dot k s d trunc x = Ok x).
      { intros k d Hk. unfold write. rewrite (exists_ok dot _ _ _ _ (proj1 HG) HD), HA, HN, (last_proper _ Hn HF).
        assert (EC : h5_create (s_file x) p (Dataset d) = None).
        { unfold h5_create. destruct p; [contradiction|]. destruct (obj (s_file x) (removelast (s0 :: p))) as [[| |]|]; try reflexivity. now contradiction HO. }
        rewrite EC. destruct k; try reflexivity. contradiction. }
      split; now apply W.
    - intro HO. cbn [put]. unfold write. rewrite (exists_ok dot _ _ _ _ (proj1 HG) HD). destruct (obj (s_file x) p); [reflexivity|contradiction].
  Qed.
  (** A ColorMatrix is written as one element of a type of its own and cannot be read back. *)
  Theorem C85_colmat_refuted x s p (dbl : bool) tn v trunc x1 : good x -> denotes (s_cwd x) s p -> obj (s_file x) [tn] = Some (NamedType (colmat_t (width dbl))) ->
    may_write (s_file x) p trunc ->
    write_typed dot KScalar tn (colmat_t (width dbl)) s [] [v] trunc x = Ok x1 ->
    forall old, get dot e conv real old (YObject (width dbl) 18) s x1 = Abort.
  Proof.
    intros HG HD HT HM HP old. unfold write_typed, commit in HP. rewrite HT in HP. cbn [obind fst snd] in HP.
    destruct (write_ok dot KScalar s (mkData (colmat_t (width dbl)) [] [v]) trunc x p HG HD HM) as (F & E & G1 & (W1 & _)).
    rewrite HP in E. injection E as ->. cbn [get]. unfold rd_oscalar. rewrite (find_ok dot _ s p _ G1 HD W1). cbn [bind]. now destruct dbl.
  Qed.
  (** An object smaller than a REAL is copied to an empty buffer. *)
  Theorem C85_small_object_refuted x s v trunc : put dot e 8 (VObject 4 1 [v]) s trunc x = UB.
  Proof. reflexivity. Qed.
  (** An object of doubles written by a build in double precision and read by one in single precision is
      copied from a buffer half its size. *)
  Theorem C85_precision_refuted x s p n v trunc x1 : good x -> denotes (s_cwd x) s p -> may_write (s_file x) p trunc -> 0 < n -> object_ok 8 n v ->
    put dot e 8 (VObject 8 n v) s trunc x = Ok x1 ->
    (forall old, get dot e conv 8 old (YObject 8 n) s x1 = Val (VObject 8 n v)) /\
    forall old, get dot e conv 4 old (YObject 8 n) s x1 = Undef.
  Proof.
    intros HG HD HM Hn Hv HP.
    assert (HV : value_ok 8 (VObject 8 n v)) by (split; [lia|]; split; [assumption|]; split; [now exists n|assumption]).
    assert (HT : types_ok (s_file x) (VObject 8 n v) p) by (intros q t []).
    destruct (put_ok dot e conv 8 (or_intror eq_refl) (VObject 8 n v) s trunc x p HG HD HM HV HT) as (x1' & d & H1 & H2 & H3 & H4 & H5 & _).
    rewrite HP in H1. injection H1 as <-. rewrite <- H4 in HD. split.
    - intro old. exact (get_ok dot e conv 8 (or_intror eq_refl) old _ s x1 p d H3 HD H5 H2 HV).
    - intro old. cbn [stored] in H2. rewrite (oscalar_stored e conv 8 (or_intror eq_refl) 8 n n) in H2 by lia. injection H2 as <-.
      cbn [map concat] in H5. rewrite app_nil_r in H5. cbn [get]. unfold rd_oscalar. rewrite (find_ok dot x1 s p _ H3 HD H5).
      cbn [bind data_array d_ty ty_of t_size d_dims real_t Nat.eqb cty_size negb orb]. rewrite unimage_length, Nat.eqb_refl. cbn [negb].
      unfold floats, rd_array. cbn [Nat.eqb]. rewrite (find_ok dot x1 s p _ H3 HD H5). cbn [bind]. rewrite check_ok by reflexivity.
      cbn [bind data_array d_dims length Nat.eqb]. assert (E : (n * 4 <? n * 8) = true) by (apply Nat.ltb_lt; lia). now rewrite E.
  Qed.
  (** An array of no objects cannot be read back: division by zero. *)
  Theorem C85_empty_objects_refuted x s p w n trunc x1 : real = 4 \/ real = 8 -> good x -> denotes (s_cwd x) s p -> may_write (s_file x) p trunc ->
    0 < w -> 0 < n -> (exists m, n * w = m * real) ->
    put dot e real (VObjects w n []) s trunc x = Ok x1 -> forall old, get dot e conv real old (YObjects w n) s x1 = Undef.
  Proof.
    intros Hreal HG HD HM Hw Hn [m Hm] HP old. cbn [put] in HP. unfold write_oscalars in HP. rewrite (oscalar_stored e conv real Hreal w n m) in HP by assumption.
    cbn [map concat] in HP. destruct (write_ok dot KArray s (data_array (real_t real) []) trunc x p HG HD HM) as (F & E & G1 & (W1 & _)).
    rewrite HP in E. injection E as ->. cbn [get]. unfold rd_oscalars. rewrite (find_ok dot _ s p _ G1 HD W1).
    cbn [bind data_array d_ty ty_of t_size d_dims length]. rewrite (real_size real Hreal).
    assert (E : negb ((real =? 4) || (real =? 8)) = false) by (destruct Hreal as [->| ->]; reflexivity). rewrite E.
    rewrite Nat.mul_0_l, Nat.mod_0_l, Nat.div_0_l by nia. reflexivity.
  Qed.
  (** push("..") makes a group of that name. *)
  Theorem C85_dotdot_refuted x : good x -> obj (s_file x) (s_cwd x ++ [".."%string]) = None ->
    exists y, ends (fun fuel => push dot fuel ".." x) (Ok y) /\ s_cwd y = s_cwd x ++ [".."%string] /\
      obj (s_file y) (s_cwd x ++ [".."%string]) = Some Group.
  Proof.
    intros HG HN.
    assert (HP : proper "..") by (split; [discriminate|]; split; [discriminate|]; intros [|a [|b [|c r]]] t H; cbn in H; discriminate).
    assert (HD : denotes (s_cwd x) ".." (s_cwd x ++ [".."%string])).
    { exists [".."%string]. split; [now constructor|]. right. split; [discriminate|reflexivity]. }
    destruct (C85_push dot x ".." _ HG HD) as (y & E & G & C & W).
    - intros q Hq. apply above_snoc in Hq. destruct Hq as [[r Hq]| ->]; [|now left]. right.
      destruct HG as (HT & HC & _). destruct r as [|c r]; [rewrite app_nil_r in Hq; rewrite <- Hq; exact HC|].
      apply (tree_up (s_file x) q (c :: r)); [assumption| |discriminate]. rewrite <- Hq, HC. discriminate.
    - exists y. split; [assumption|]. split; [assumption|]. destruct W as (W & _). apply W. apply above_refl.
  Qed.
  (** When something that is not a group is in the way, push stops half way without a word. *)
  Theorem C85_push_blocked_refuted x s p q d : good x -> denotes (s_cwd x) s p -> above q p -> obj (s_file x) q = Some (Dataset d) ->
    exists y, ends (fun fuel => push dot fuel s x) (Ok y) /\ good y /\ s_cwd y <> p /\ above (s_cwd y) p.
  Proof.
    intros HG HD HQ HO. destruct (push_ok dot x s p HG HD) as (y & r & E & G & C & A & W & _). exists y.
    split; [assumption|]. split; [assumption|]. rewrite C. split; [|assumption]. intros ->.
    destruct W as (W1 & _ & W3 & _). specialize (W1 q HQ). rewrite W3 in W1 by (rewrite HO; discriminate). congruence.
  Qed.
  (** Replacing an attribute by one that is too long destroys the old one before the program stops. *)
  Theorem C85_attribute_destroyed_refuted x s p a cs : good x -> denotes (s_cwd x) s p -> att (s_file x) p a <> None -> (65536 < N.of_nat (S (length cs)))%N ->
    exists F, put_att dot att_max (VString cs) s a true x = Stop F /\ att F p a = None.
  Proof.
    intros HG HD HA HL. destruct (denotes_proper _ _ _ HD) as [_ HAb].
    assert (HO : obj (s_file x) p <> None) by (destruct HG as ((_ & _ & _ & T4) & _); exact (T4 p a HA)).
    cbn [put_att]. unfold write_att. rewrite (exists_ok dot _ _ _ _ (proj1 HG) HD), HAb.
    destruct (obj (s_file x) p); [|contradiction]. destruct (att (s_file x) p a); [|contradiction]. cbn [negb].
    assert (EB : bytes (data_string cs) = S (length cs)) by (unfold bytes; cbn; lia). rewrite EB.
    assert (E : (limit <? N.of_nat (S (length cs)))%N = true) by (apply N.ltb_lt; exact HL). rewrite E. cbn [andb].
    eexists. split; [reflexivity|]. apply set_att_spec.
  Qed.
  (** One that HDF5 has no room for is lost without a word. *)
  Theorem C85_attribute_lost_refuted x s p a cs : good x -> denotes (s_cwd x) s p -> obj (s_file x) p <> None -> att (s_file x) p a = None ->
    att_max < S (length cs) -> (N.of_nat (S (length cs)) <= 65536)%N ->
    put_att dot att_max (VString cs) s a false x = Ok (with_file x (s_file x)).
  Proof.
    intros HG HD HO HA HL HM. destruct (denotes_proper _ _ _ HD) as [_ HAb].
    cbn [put_att]. unfold write_att. rewrite (exists_ok dot _ _ _ _ (proj1 HG) HD), HAb, HA.
    destruct (obj (s_file x) p); [|contradiction].
    assert (EB : bytes (data_string cs) = S (length cs)) by (unfold bytes; cbn; lia). rewrite EB.
    assert (E : (limit <? N.of_nat (S (length cs)))%N = false) by (apply N.ltb_ge; exact HM). rewrite E. cbn [andb].
    assert (E2 : (att_max <? S (length cs)) = true) by (apply Nat.ltb_lt; exact HL). now rewrite E2.
  Qed.
  (** Replacing a dataset loses its attributes. *)
  Theorem C85_overwrite_refuted x s p v trunc x1 : real = 4 \/ real = 8 -> good x -> denotes (s_cwd x) s p -> may_write (s_file x) p trunc ->
    value_ok real v -> types_ok (s_file x) v p -> put dot e real v s trunc x = Ok x1 -> forall a, att (s_file x1) p a = None.
  Proof.
    intros Hreal HG HD HM HV HT HP.
    destruct (put_ok dot e conv real Hreal v s trunc x p HG HD HM HV HT) as (x1' & d & H1 & _ & _ & _ & _ & H6 & _).
    rewrite HP in H1. injection H1 as <-. exact H6.
  Qed.
End C85.

(** writeQlua on a name of two components leaves another working group; when it may replace, it deletes
    everything in the group; when the working group is in the one it replaces there is none after it. *)
Definition four : list data := map (fun v => data_scalar TInt v) [1; 2; 3; 4]%N.
Theorem C85_qlua_group_refuted : match run true 4000 9 [WriteQlua "a/b" four false] start with
  | Ok y => s_cwd start = [] /\ s_cwd y = ["a"%string] /\ obj (s_file y) ["a"; "b"; "3"]%string <> None
  | _ => False
  end.
Proof. vm_compute. split; [reflexivity|]. split; [reflexivity|discriminate]. Qed.
Theorem C85_qlua_deletes_refuted : match run true 4000 9 [WriteQlua "b" four false; Write KScalar "b/note" (data_scalar TInt 7) false] start with
  | Ok x => obj (s_file x) ["b"; "note"]%string <> None /\
      match exec true 4000 9 (WriteQlua "b" four true) x with Ok y => obj (s_file y) ["b"; "note"]%string = None | _ => False end /\
      match run true 4000 9 [ChDir "b"; WriteQlua "/b" four true] x with UB => True | _ => False end
  | _ => False
  end.
Proof. vm_compute. split; [discriminate|]. split; [reflexivity|exact I]. Qed.
(** If push is blocked, the datasets are written in the group where it stopped. *)
Theorem C85_qlua_blocked_refuted : match run true 4000 9 [Write KScalar "n" (data_scalar TInt 7) false; WriteQlua "n/b" four false] start with
  | Ok y => obj (s_file y) ["n"; "b"]%string = None /\ obj (s_file y) ["0"%string] <> None
  | _ => False
  end.
Proof. vm_compute. split; [reflexivity|discriminate]. Qed.

(** Cases: the hypotheses of the theorems above are met. *)
Definition in_group : st :=
  match run true 4000 9 [Push "a"; Write KArray "v" (data_array TInt [1; 2]%N) false; WriteAtt false "v" "u" (data_scalar TInt 5) false] start with Ok y => y | _ => start end.
Example C85_bad_cases :
  s_cwd in_group = ["a"%string] /\ cd 50 "." in_group = Running /\ cd 50 "/a/" in_group = Running /\
  get true LittleE (fun _ _ v => v) 8 (0, 0)%N (YScalar TInt) "v" in_group = Undef /\
  obj (s_file in_group) ["a"; ".."]%string = None /\ att (s_file in_group) ["a"; "v"]%string "u" <> None /\
  obj (s_file in_group) (removelast ["a"; "z"; "n"])%string <> Some Group.
Proof. vm_compute. repeat split; discriminate. Qed.
Example C85_long_string : (65536 < N.of_nat (S (length (repeat 65%N (N.to_nat 65536)))))%N.
Proof. rewrite repeat_length, Nnat.Nat2N.inj_succ, Nnat.N2Nat.id. reflexivity. Qed.

Print Assumptions C85_cd_self_refuted.
Print Assumptions C85_precision_refuted.
Print Assumptions C85_push_blocked_refuted.
Print Assumptions C85_qlua_deletes_refuted.
Print Assumptions C85_attribute_destroyed_refuted.

(** Proofs about the command line. *)
From Coq Require Import List Bool Arith ZArith NArith String Lia.
From Verif Require Import Base NerscHeader XmlModel XmlSpec XmlProofs XmlOne StartModel StartSpec.
Import ListNotations.
Local Open Scope nat_scope.
Local Notation length := List.length.

Lemma same_iff a : forall b, same a b = true <-> a = b.
Proof.
  induction a as [|x a IH]; intros [|y b]; cbn [same]; split; intros H; try discriminate; try reflexivity.
  - apply andb_true_iff in H. destruct H as [H1 H2]. apply N.eqb_eq in H1. apply IH in H2. now subst.
  - inversion H; subst. rewrite N.eqb_refl. now apply IH.
Qed.
Lemma same_refl a : same a a = true.
Proof. now apply same_iff. Qed.
Lemma same_neq a b : a <> b -> same a b = false.
Proof. intros H. destruct (same a b) eqn:E; [apply same_iff in E; contradiction|reflexivity]. Qed.

(** ** Numbers *)
Lemma scan_begins t z rest : begins t z rest ->
  scan_dec t = if ((- 2 ^ 31 <=? z) && (z <? 2 ^ 31))%Z then Val (Some (z, rest)) else Undef.
Proof.
  intros (ws & num & neg & m & -> & Hw & Hn & -> & Hr). unfold scan_dec. rewrite skip_spaces by exact Hw.
  destruct (numeral_head num neg m rest Hn) as (c & t & E & Hc). rewrite E, skip_cons by exact Hc. rewrite <- E.
  assert (S : exists ds, sign (num ++ rest) = (neg, ds ++ rest) /\ dec_digits ds /\ m = dec_value ds).
  { destruct Hn as [s H|s H|s H]; exists s; (split; [|split; [exact H|reflexivity]]); [|reflexivity|reflexivity].
    destruct H as [H F]. destruct s as [|d s]; [congruence|]. cbn [app]. unfold sign. inversion F; subst.
    destruct (N.eqb_spec d 45); [lia|]. destruct (N.eqb_spec d 43); [lia|]. reflexivity. }
  destruct S as (ds & -> & [D1 D2] & ->). rewrite digits_run by assumption. cbn [Nat.add].
  destruct ds as [|d ds]; [congruence|]. cbn [length]. fold (dec_value (d :: ds)). reflexivity.
Qed.
Lemma digits_stop s : forall n a q m r, digits 10 n a s = (q, m, r) -> forall c r', r = c :: r' -> ~ (48 <= c <= 57)%N.
Proof.
  induction s as [|x s IH]; intros n a q m r H c r' E; cbn [digits] in H.
  - inversion H; subst. discriminate.
  - destruct (digit 10 x) as [d|] eqn:D; [exact (IH _ _ _ _ _ H c r' E)|]. inversion H; subst. inversion H3; subst.
    intros G. rewrite (digit10 c G) in D. discriminate.
Qed.
Lemma scan_cases t : scan_dec t = Val None \/ exists z rest, begins t z rest.
Proof.
  unfold scan_dec. destruct (skip_split t) as (ws & H & E). destruct (sign (skip_ws t)) as [neg s2] eqn:SG.
  destruct (digits 10 0 0 s2) as [[q m] r] eqn:D. destruct (digits_split _ _ _ _ _ _ D) as (ds & E2 & EQ & F & EM).
  destruct q as [|q]; [now left|]. right. exists (signed_value neg m), r.
  assert (DD : dec_digits ds) by (split; [intros ->; cbn [length] in EQ; lia|exact F]).
  cbn [Nat.add] in EQ. change (m = dec_value ds) in EM. subst m s2. pose proof (digits_stop _ _ _ _ _ _ D) as ST.
  unfold begins. rewrite E. destruct (skip_ws t) as [|c s1] eqn:K.
  { cbn [sign] in SG. inversion SG. destruct ds; [|discriminate]. cbn [length] in EQ. lia. }
  cbn [sign] in SG. destruct (N.eqb_spec c 45) as [->|N1]; [|destruct (N.eqb_spec c 43) as [->|N2]]; inversion SG; subst.
  - exists ws, (45%N :: ds), true, (dec_value ds). split; [reflexivity|]. split; [exact H|]. split; [now constructor|]. now split.
  - exists ws, (43%N :: ds), false, (dec_value ds). split; [reflexivity|]. split; [exact H|]. split; [now constructor|]. now split.
  - exists ws, ds, false, (dec_value ds). split; [f_equal; congruence|]. split; [exact H|]. split; [now constructor|]. now split.
Qed.
Lemma is_int_iff z : ((- 2 ^ 31 <=? z) && (z <? 2 ^ 31))%Z = true <-> is_int z.
Proof. unfold is_int. rewrite andb_true_iff, Z.leb_le, Z.ltb_lt. reflexivity. Qed.
Lemma scan_int t z rest : is_int z -> begins t z rest -> scan_dec t = Val (Some (z, rest)).
Proof. intros H B. rewrite (scan_begins _ _ _ B). apply is_int_iff in H. now rewrite H. Qed.
Lemma scan_none t : (forall z rest, ~ begins t z rest) -> scan_dec t = Val None.
Proof. intros H. destruct (scan_cases t) as [E|(z & r & B)]; [exact E|now destruct (H z r)]. Qed.
(** What scanning finds *)
Lemma scan_found t :
  (scan_dec t = Val None /\ forall z rest, ~ begins t z rest) \/
  (exists z rest, is_int z /\ begins t z rest /\ scan_dec t = Val (Some (z, rest))) \/ scan_dec t = Undef.
Proof.
  destruct (scan_cases t) as [E|(z & r & B)].
  - left. split; [exact E|]. intros z r B. rewrite (scan_begins _ _ _ B) in E. destruct (_ && _)%bool; discriminate.
  - right. pose proof (scan_begins _ _ _ B) as E. destruct ((- 2 ^ 31 <=? z) && (z <? 2 ^ 31))%Z eqn:I; [|now right].
    left. exists z, r. apply is_int_iff in I. now split.
Qed.
Lemma scan_pair_ok t a b : pair_text t a b -> scan_pair t = Val (a, b).
Proof.
  unfold scan_pair. intros [H|a' rest I B H|a' rest I B H|a' rest b' I B (I' & r & B')].
  - now rewrite scan_none.
  - rewrite (scan_int _ _ _ I B). cbn [bind]. destruct rest as [|c r]; [reflexivity|].
    destruct (N.eqb_spec c 58) as [->|]; [now destruct (H r)|reflexivity].
  - rewrite (scan_int _ _ _ I B). cbn [bind N.eqb Pos.eqb]. rewrite (scan_none _ H). reflexivity.
  - rewrite (scan_int _ _ _ I B). cbn [bind N.eqb Pos.eqb]. rewrite (scan_int _ _ _ I' B'). reflexivity.
Qed.
Lemma scan_pair_found t : (exists a b, pair_text t a b) \/ scan_pair t = Undef.
Proof.
  destruct (scan_found t) as [[_ H]|[(z & rest & I & B & _)|E]].
  - left. exists None, None. now apply pair_none.
  - destruct rest as [|c r]; [left; exists (Some z), None; apply pair_one with []; [exact I|exact B|discriminate]|].
    destruct (N.eqb_spec c 58) as [->|NE].
    + destruct (scan_found r) as [[_ H]|[(z' & rest' & I' & B' & _)|E']].
      * left. exists (Some z), None. now apply pair_colon with r.
      * left. exists (Some z), (Some z'). apply pair_both with r; [exact I|exact B|]. split; [exact I'|now exists rest'].
      * right. unfold scan_pair. rewrite (scan_int _ _ _ I B). cbn [bind N.eqb Pos.eqb]. now rewrite E'.
    + left. exists (Some z), None. apply pair_one with (c :: r); [exact I|exact B|]. intros r' H. inversion H. contradiction.
  - right. unfold scan_pair. now rewrite E.
Qed.

(** ** Arguments *)
Lemma skipn_hd {A} (l : list A) : forall i, nth_error l i = hd_error (skipn i l).
Proof. induction l as [|a l IH]; intros [|i]; try reflexivity. apply IH. Qed.
Lemma skipn_tl {A} (l : list A) : forall i, skipn (S i) l = tl (skipn i l).
Proof. induction l as [|a l IH]; intros [|i]; try reflexivity. apply (IH i). Qed.
Lemma arg_at argv i t r : skipn i argv = t :: r -> arg argv i = Val t.
Proof. intros H. unfold arg. rewrite skipn_hd, H. reflexivity. Qed.
Lemma arg_next argv i t r : skipn i argv = t :: r -> arg argv (S i) = of_option (hd_error r).
Proof. intros H. unfold arg. rewrite skipn_hd, skipn_tl, H. reflexivity. Qed.
Lemma skip_next {A} (argv : list A) i t r : skipn i argv = t :: r -> skipn (S i) argv = r.
Proof. intros H. now rewrite skipn_tl, H. Qed.
Lemma int_at_ok argv i t r z : skipn i argv = t :: r -> number t z -> int_at argv i = Val z.
Proof. intros H (I & rest & B). unfold int_at. rewrite (arg_at _ _ _ _ H). cbn [bind]. rewrite (scan_int _ _ _ I B). reflexivity. Qed.
Lemma int_at_found argv i : (exists t r z, skipn i argv = t :: r /\ number t z) \/ int_at argv i = Undef.
Proof.
  destruct (skipn i argv) as [|t r] eqn:S.
  - right. unfold int_at, arg. rewrite skipn_hd, S. reflexivity.
  - destruct (scan_found t) as [[E _]|[(z & rest & I & B & E)|E]].
    + right. unfold int_at. rewrite (arg_at _ _ _ _ S). cbn [bind]. rewrite E. reflexivity.
    + left. exists t, r, z. split; [reflexivity|]. split; [exact I|now exists rest].
    + right. unfold int_at. rewrite (arg_at _ _ _ _ S). cbn [bind]. now rewrite E.
Qed.
Lemma ints_at_ok l : forall argv i t post, skipn i argv = t :: map fst l ++ post -> Forall (fun p => number (fst p) (snd p)) l ->
  ints_at (length l) argv i = Val (map snd l, i + length l).
Proof.
  induction l as [|[s z] l IH]; intros argv i t post H F; [cbn; now rewrite Nat.add_0_r|]. inversion F; subst.
  apply skip_next in H. cbn [map fst app] in H. cbn [length ints_at]. rewrite (int_at_ok _ _ _ _ z H) by assumption. cbn [bind].
  rewrite (IH _ _ _ _ H) by assumption. cbn [bind map snd]. f_equal. f_equal. lia.
Qed.
Lemma ints_at_found n : forall argv i t r, skipn i argv = t :: r ->
  (exists l post, r = map fst l ++ post /\ length l = n /\ Forall (fun p => number (fst p) (snd p)) l) \/ ints_at n argv i = Undef.
Proof.
  induction n as [|n IH]; intros argv i t r H; [left; now exists [], r|]. cbn [ints_at]. apply skip_next in H.
  destruct (int_at_found argv (S i)) as [(s & r' & z & S & NU)|E]; [|right; now rewrite E].
  rewrite (int_at_ok _ _ _ _ _ S NU). cbn [bind]. destruct (IH _ _ _ _ S) as [(l & post & -> & L & F)|E]; [|right; now rewrite E].
  left. exists ((s, z) :: l), post. rewrite <- H, S. split; [reflexivity|]. split; [cbn [length]; lia|now constructor].
Qed.

Section Lines.
  Context {F : Type} (scan_f : tok -> option F) (eight : F) (nd : nat) (profiling : bool).
  Notation config := (config F).
  (** what one part does *)
  Definition effect (i : item) (c : config) : config :=
    mkConfig
      (or_else (match i with Verbose => Some true | _ => None end) (verbose c))
      (or_else (match i with Level _ z => Some (Some z) | _ => None end) (level c))
      (or_else (match i with Pool t => scan_f t | _ => None end) (pool c))
      (or_else (match i with Geom g => Some (Some (map snd g)) | _ => None end) (geom c))
      (or_else (match i with IoGeom g => Some (Some (map snd g)) | _ => None end) (iogeom c))
      (or_else (match i with Bind _ _ _ => Some true | _ => None end) (bound c))
      (or_else (match i with Bind _ a _ => a | _ => None end) (cores c))
      (or_else (match i with Bind _ _ b => b | _ => None end) (threads c)).
  Lemma effects_settings l : fold_left (fun c i => effect i c) l (defaults eight) = settings scan_f eight l.
  Proof.
    induction l as [|i l IH] using rev_ind; [reflexivity|]. rewrite fold_left_app. cbn [fold_left]. rewrite IH.
    unfold settings, latest. rewrite !fold_left_app. reflexivity.
  Qed.
  Lemma same_config (c : config) : mkConfig (verbose c) (level c) (pool c) (geom c) (iogeom c) (bound c) (cores c) (threads c) = c.
  Proof. now destruct c. Qed.
  Definition step_good (step : list tok -> config -> nat -> res (config * nat)) (options : list tok) : Prop :=
    (forall it argv c i post, in_order options nd it -> skipn i argv = words it ++ post ->
       step argv c i = Val (effect it c, i + length (words it) - 1)) /\
    (forall argv c i t r, skipn i argv = t :: r ->
       (exists it post, in_order options nd it /\ t :: r = words it ++ post) \/ step argv c i = Undef).

  Lemma neq_option options t o : ~ In t options -> In o options -> same t o = false.
  Proof. intros H I. apply same_neq. intros ->. contradiction. Qed.
  Lemma options_par_in o : In o (options_par profiling) -> o = txt "-V" \/ (profiling = true /\ o = txt "-p") \/ o = txt "-poolsize" \/ o = txt "-geom" \/ o = txt "-iogeom" \/ o = txt "-bind".
  Proof.
    unfold options_par. rewrite in_app_iff. destruct profiling; cbn [In]; intros H; intuition auto.
  Qed.
  Lemma step_par_good : step_good (step_par scan_f nd profiling) (options_par profiling).
  Proof.
    split.
    - intros it argv c i post [HI HD] S. unfold step_par.
      destruct it as [|t z|t|l|l|t a b|t]; cbn [words app] in S; rewrite (arg_at _ _ _ _ S); cbn [bind].
      + cbn [words length]. replace (i + 1 - 1) with i by lia. reflexivity.
      + cbn [words hd] in HI. apply options_par_in in HI. assert (P : profiling = true).
        { destruct HI as [H|[[P _]|[H|[H|[H|H]]]]]; try exact P; discriminate H. }
        rewrite P. change (same (txt "-p") (txt "-V")) with false. change (same (txt "-p") (txt "-p")) with true. cbn [andb].
        rewrite (int_at_ok _ _ _ _ z (skip_next _ _ _ _ S) HD). cbn [bind words length]. replace (i + 2 - 1) with (Datatypes.S i) by lia. reflexivity.
      + change (same (txt "-poolsize") (txt "-V")) with false. change (same (txt "-poolsize") (txt "-p")) with false.
        change (same (txt "-poolsize") (txt "-poolsize")) with true. rewrite andb_false_r. rewrite (arg_next _ _ _ _ S). cbn [hd_error of_option bind words length].
        replace (i + 2 - 1) with (Datatypes.S i) by lia. reflexivity.
      + change (same (txt "-geom") (txt "-V")) with false. change (same (txt "-geom") (txt "-p")) with false. change (same (txt "-geom") (txt "-poolsize")) with false.
        change (same (txt "-geom") (txt "-geom")) with true. rewrite andb_false_r. destruct HD as [<- HF]. rewrite (ints_at_ok _ _ _ _ _ S HF).
        cbn [bind words length]. rewrite map_length. replace (i + Datatypes.S (length l) - 1) with (i + length l) by lia. reflexivity.
      + change (same (txt "-iogeom") (txt "-V")) with false. change (same (txt "-iogeom") (txt "-p")) with false. change (same (txt "-iogeom") (txt "-poolsize")) with false.
        change (same (txt "-iogeom") (txt "-geom")) with false. change (same (txt "-iogeom") (txt "-iogeom")) with true.
        rewrite andb_false_r. destruct HD as [<- HF]. rewrite (ints_at_ok _ _ _ _ _ S HF).
        cbn [bind words length]. rewrite map_length. replace (i + Datatypes.S (length l) - 1) with (i + length l) by lia. reflexivity.
      + change (same (txt "-bind") (txt "-V")) with false. change (same (txt "-bind") (txt "-p")) with false. change (same (txt "-bind") (txt "-poolsize")) with false.
        change (same (txt "-bind") (txt "-geom")) with false. change (same (txt "-bind") (txt "-iogeom")) with false. change (same (txt "-bind") (txt "-bind")) with true.
        rewrite andb_false_r. rewrite (arg_next _ _ _ _ S). cbn [hd_error of_option bind]. rewrite (scan_pair_ok _ _ _ HD).
        cbn [bind words length]. replace (i + 2 - 1) with (Datatypes.S i) by lia. reflexivity.
      + assert (P : profiling && same t (txt "-p") = false).
        { destruct profiling; [|reflexivity]. apply (neq_option _ _ _ HI). cbn. auto. }
        rewrite P. rewrite !(neq_option _ t _ HI) by (unfold options_par; rewrite in_app_iff; cbn [In]; tauto).
        cbn [words length]. replace (i + 1 - 1) with i by lia. unfold effect, or_else. now rewrite same_config.
    - intros argv c i t r S. unfold step_par. rewrite (arg_at _ _ _ _ S). cbn [bind].
      assert (IN : forall o, In o [txt "-V"; txt "-poolsize"; txt "-geom"; txt "-iogeom"; txt "-bind"] -> In o (options_par profiling))
        by (intros o H; unfold options_par; rewrite in_app_iff; now right).
      destruct (same t (txt "-V")) eqn:E1; [apply same_iff in E1; subst; left; exists Verbose, r; repeat split; apply IN; cbn; auto|].
      destruct (profiling && same t (txt "-p")) eqn:E2.
      { apply andb_true_iff in E2. destruct E2 as [P E2]. apply same_iff in E2. subst t.
        destruct (int_at_found argv (Datatypes.S i)) as [(t' & r' & z & S' & NU)|E]; [|right; now rewrite E].
        left. exists (Level t' z), r'. rewrite (skip_next _ _ _ _ S) in S'. subst r. split; [|reflexivity]. split; [|exact NU].
        unfold options_par. rewrite P. cbn. auto. }
      destruct (same t (txt "-poolsize")) eqn:E3.
      { apply same_iff in E3. subst t. rewrite (arg_next _ _ _ _ S). destruct r as [|t' r']; [now right|]. left.
        exists (Pool t'), r'. split; [|reflexivity]. split; [apply IN; cbn; auto|exact I]. }
      destruct (same t (txt "-geom")) eqn:E4.
      { apply same_iff in E4. subst t. destruct (ints_at_found nd _ _ _ _ S) as [(l & post & -> & L & FA)|E]; [|right; now rewrite E].
        left. exists (Geom l), post. split; [|reflexivity]. split; [apply IN; cbn; auto|now split]. }
      destruct (same t (txt "-iogeom")) eqn:E5.
      { apply same_iff in E5. subst t. destruct (ints_at_found nd _ _ _ _ S) as [(l & post & -> & L & FA)|E]; [|right; now rewrite E].
        left. exists (IoGeom l), post. split; [|reflexivity]. split; [apply IN; cbn; auto|now split]. }
      destruct (same t (txt "-bind")) eqn:E6.
      { apply same_iff in E6. subst t. rewrite (arg_next _ _ _ _ S). destruct r as [|t' r']; [now right|]. cbn [hd_error of_option bind].
        destruct (scan_pair_found t') as [(a & b & P)|E]; [|right; now rewrite E].
        left. exists (Bind t' a b), r'. split; [|reflexivity]. split; [apply IN; cbn; auto 6|exact P]. }
      left. exists (Other t), r. split; [|reflexivity]. split; [|exact I]. intros H. apply options_par_in in H.
      destruct H as [->|[[P ->]|[->|[->|[->| ->]]]]]; try (rewrite same_refl in *; discriminate). rewrite P, same_refl in E2. discriminate.
  Qed.

  Lemma step_one_good : step_good (step_one scan_f profiling) (options_one profiling).
  Proof.
    assert (OPT : forall o, In o (options_one profiling) <-> (profiling = true /\ o = txt "-p") \/ o = txt "-poolsize").
    { intros o. unfold options_one. rewrite in_app_iff. destruct profiling; cbn [In]; intuition (auto; discriminate). }
    split.
    - intros it argv c i post [HI HD] S. unfold step_one.
      destruct it as [|t z|t|l|l|t a b|t]; cbn [words app hd] in S, HI; rewrite ?(arg_at _ _ _ _ S); cbn [bind];
        try (apply OPT in HI; destruct HI as [[_ HI]|HI]; discriminate HI).
      + apply OPT in HI. destruct HI as [[P _]|HI]; [|discriminate HI]. rewrite P. cbn [andb]. rewrite same_refl.
        pose proof (skip_next _ _ _ _ S) as S'. rewrite (int_at_ok _ _ _ _ z S' HD). cbn [bind]. rewrite (arg_at _ _ _ _ S'). cbn [bind].
        assert (NE : same t (txt "-poolsize") = false).
        { apply same_neq. intros ->. destruct HD as (_ & rest & B). destruct (scan_found (txt "-poolsize")) as [[_ H]|[(z' & r & _ & _ & E)|E]].
          - exact (H _ _ B).
          - vm_compute in E. discriminate.
          - vm_compute in E. discriminate. }
        rewrite NE. cbn [words length]. replace (i + 2 - 1) with (Datatypes.S i) by lia. reflexivity.
      + change (same (txt "-poolsize") (txt "-p")) with false. rewrite andb_false_r. cbn [bind]. rewrite (arg_at _ _ _ _ S). cbn [bind]. rewrite same_refl.
        rewrite (arg_next _ _ _ _ S). cbn [hd_error of_option bind words length]. replace (i + 2 - 1) with (Datatypes.S i) by lia. reflexivity.
      + assert (P : profiling && same t (txt "-p") = false).
        { destruct profiling; [|reflexivity]. apply (neq_option _ _ _ HI). apply OPT. auto. }
        rewrite P. cbn [bind]. rewrite (arg_at _ _ _ _ S). cbn [bind]. rewrite (neq_option _ t _ HI) by (apply OPT; auto).
        cbn [words length]. replace (i + 1 - 1) with i by lia. unfold effect, or_else. now rewrite same_config.
    - intros argv c i t r S. unfold step_one. rewrite (arg_at _ _ _ _ S). cbn [bind].
      destruct (profiling && same t (txt "-p")) eqn:E2.
      { apply andb_true_iff in E2. destruct E2 as [P E2]. apply same_iff in E2. subst t.
        destruct (int_at_found argv (Datatypes.S i)) as [(t' & r' & z & S' & NU)|E]; [|right; now rewrite E].
        left. exists (Level t' z), r'. rewrite (skip_next _ _ _ _ S) in S'. subst r. split; [|reflexivity]. split; [|exact NU]. apply OPT. auto. }
      cbn [bind]. rewrite (arg_at _ _ _ _ S). cbn [bind].
      destruct (same t (txt "-poolsize")) eqn:E3.
      { apply same_iff in E3. subst t. rewrite (arg_next _ _ _ _ S). destruct r as [|t' r']; [now right|]. left.
        exists (Pool t'), r'. split; [|reflexivity]. split; [apply OPT; auto|exact I]. }
      left. exists (Other t), r. split; [|reflexivity]. split; [|exact I]. intros H. apply OPT in H.
      destruct H as [[P ->]| ->]; [rewrite P, same_refl in E2|rewrite same_refl in E3]; discriminate.
  Qed.

  Lemma words_some it : 1 <= length (words it).
  Proof. destruct it; cbn [words length]; lia. Qed.
  Lemma skipn_skipn' {A} (l : list A) : forall a b, skipn a (skipn b l) = skipn (b + a) l.
  Proof. induction l as [|x l IH]; intros a [|b]; cbn [skipn Nat.add]; rewrite ?skipn_nil; try reflexivity. apply IH. Qed.
  Lemma skip_words {A} (argv w post : list A) i : skipn i argv = w ++ post -> skipn (i + length w) argv = post.
  Proof. intros H. rewrite <- skipn_skipn', H. rewrite skipn_app, Nat.sub_diag, skipn_all. reflexivity. Qed.

  Context (step : list tok -> config -> nat -> res (config * nat)) (options : list tok) (good : step_good step options).
  Lemma parse_items items : forall fuel argv c i, Forall (in_order options nd) items -> skipn i argv = List.concat (map words items) ->
    length argv - i <= fuel -> parse step fuel argv c i = Val (fold_left (fun c i => effect i c) items c).
  Proof.
    induction items as [|it items IH]; intros fuel argv c i HF S L.
    - cbn [map List.concat fold_left] in *. assert (LE : length argv <= i).
      { destruct (le_gt_dec (length argv) i) as [H|H]; [exact H|]. pose proof (skipn_length i argv) as E. rewrite S in E. cbn in E. lia. }
      destruct fuel; [reflexivity|]. cbn [parse]. destruct (Nat.ltb_spec i (length argv)); [lia|reflexivity].
    - inversion HF; subst. cbn [map List.concat] in S. pose proof (words_some it). pose proof (skipn_length i argv) as E.
      rewrite S, app_length in E. destruct fuel as [|k]; [lia|]. cbn [parse]. destruct (Nat.ltb_spec i (length argv)); [|lia].
      rewrite (proj1 good _ _ c _ _ H1 S). cbn [bind]. destruct (Nat.leb_spec (length argv) (i + length (words it) - 1)); [lia|].
      cbn [fold_left]. apply IH; [assumption| |lia]. replace (Datatypes.S (i + length (words it) - 1)) with (i + length (words it)) by lia.
      now apply skip_words.
  Qed.
  Lemma parse_found fuel : forall argv c i, length argv - i <= fuel ->
    (exists items, Forall (in_order options nd) items /\ skipn i argv = List.concat (map words items)) \/ parse step fuel argv c i = Undef.
  Proof.
    induction fuel as [|k IH]; intros argv c i L.
    - left. exists []. split; [constructor|]. apply skipn_all2. lia.
    - cbn [parse]. destruct (Nat.ltb_spec i (length argv)); [|left; exists []; split; [constructor|apply skipn_all2; lia]].
      destruct (skipn i argv) as [|t r] eqn:S; [pose proof (skipn_length i argv) as E; rewrite S in E; cbn in E; lia|].
      destruct (proj2 good argv c i t r S) as [(it & post & O & E)|E]; [|right; now rewrite E].
      rewrite E in S. rewrite (proj1 good _ _ c _ _ O S). cbn [bind]. pose proof (words_some it).
      pose proof (skipn_length i argv) as LE. rewrite S, app_length in LE. destruct (Nat.leb_spec (length argv) (i + length (words it) - 1)); [lia|].
      replace (Datatypes.S (i + length (words it) - 1)) with (i + length (words it)) by lia.
      destruct (IH argv (effect it c) (i + length (words it))) as [(items & F' & W)|U]; [lia| |now right].
      left. exists (it :: items). split; [now constructor|]. cbn [map List.concat]. rewrite E. f_equal. rewrite (skip_words _ _ _ _ S) in W. exact W.
  Qed.
  Lemma no_help argv : ~ In (txt "-h") argv -> existsb (fun t => same t (txt "-h")) argv = false.
  Proof.
    intros H. destruct (existsb (fun t => same t (txt "-h")) argv) eqn:E; [|reflexivity]. apply existsb_exists in E. destruct E as (t & I & S). apply same_iff in S. now subst.
  Qed.
  Lemma line_items prog items : Forall (in_order options nd) items -> ~ In (txt "-h") (prog :: List.concat (map words items)) ->
    command_line eight step (prog :: List.concat (map words items)) = Val (settings scan_f eight items).
  Proof.
    intros HF HN. unfold command_line. rewrite no_help by exact HN. rewrite <- effects_settings. apply parse_items; [exact HF|reflexivity|cbn [length]; lia].
  Qed.
  Lemma line_undef prog args : (forall items, Forall (in_order options nd) items -> args <> List.concat (map words items)) ->
    ~ In (txt "-h") (prog :: args) -> command_line eight step (prog :: args) = Undef.
  Proof.
    intros H HN. unfold command_line. rewrite no_help by exact HN.
    destruct (parse_found (length (prog :: args)) (prog :: args) (defaults eight) 1) as [(items & HF & E)|E]; [cbn [length]; lia| |exact E].
    now destruct (H items HF).
  Qed.
  Lemma line_help argv : In (txt "-h") argv -> command_line eight step argv = Abort.
  Proof.
    intros H. unfold command_line. replace (existsb (fun t => same t (txt "-h")) argv) with true; [reflexivity|]. symmetry. apply existsb_exists.
    exists (txt "-h"). split; [exact H|apply same_refl].
  Qed.
End Lines.

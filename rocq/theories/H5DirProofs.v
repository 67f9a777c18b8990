(** Lemmas about names, working groups and writes in HDF5 files. *)
From Coq Require Import String Ascii List Arith NArith Bool Lia.
From Verif Require Import Base H5DirModel H5DirSpec.
Import ListNotations.
Local Open Scope nat_scope.
Local Notation length := List.length.

(** ** Names *)
Lemma peq_true p q : peq p q = true <-> p = q.
Proof. unfold peq. destruct (list_eq_dec string_dec p q); split; congruence. Qed.
Lemma peq_refl p : peq p p = true.
Proof. now apply peq_true. Qed.
Lemma peq_false p q : p <> q -> peq p q = false.
Proof. intro H. unfold peq. now destruct (list_eq_dec string_dec p q). Qed.

Definition noslash (c : string) : Prop := forall a b, c <> (a ++ String "/" b)%string.
Lemma noslash_cons ch c : noslash (String ch c) -> ch <> slash /\ noslash c.
Proof.
  intro H. split.
  - intros ->. apply (H ""%string c). reflexivity.
  - intros a b ->. apply (H (String ch a) b). reflexivity.
Qed.
Lemma pieces_app c s : noslash c -> pieces (c ++ String "/" s) = c :: pieces s.
Proof.
  induction c as [|ch c IH]; intro H.
  - reflexivity.
  - destruct (noslash_cons _ _ H) as [H1 H2]. cbn [append pieces].
    destruct (Ascii.eqb_spec ch slash) as [E|E]; [contradiction|]. now rewrite IH.
Qed.
Lemma pieces_one c : noslash c -> pieces c = [c].
Proof.
  induction c as [|ch c IH]; intro H; [reflexivity|].
  destruct (noslash_cons _ _ H) as [H1 H2]. cbn [pieces].
  destruct (Ascii.eqb_spec ch slash) as [E|E]; [contradiction|]. now rewrite IH.
Qed.
Lemma pieces_ne s : pieces s <> [].
Proof. destruct s as [|c s]; cbn; [discriminate|]. destruct (Ascii.eqb c slash); [discriminate|]. now destruct (pieces s). Qed.
Lemma pieces_trail s : pieces (s ++ "/") = pieces s ++ [""%string].
Proof.
  induction s as [|c s IH]; [reflexivity|]. cbn [append pieces]. rewrite IH.
  destruct (Ascii.eqb c slash); [reflexivity|].
  pose proof (pieces_ne s). now destruct (pieces s).
Qed.
Lemma proper_noslash c : proper c -> noslash c.
Proof. now intros (_ & _ & H). Qed.
Lemma proper_ne c : proper c -> (c =? "")%string = false.
Proof. intros (H & _). now apply String.eqb_neq. Qed.
Lemma proper_dot c : proper c -> (c =? ".")%string = false.
Proof. intros (_ & H & _). now apply String.eqb_neq. Qed.

Lemma spells_tokens s cs : spells s cs -> tokens s = cs /\ cs <> [] /\ Forall proper cs.
Proof.
  unfold tokens. induction 1 as [c Hc|c s cs Hc Hs (IH1 & IH2 & IH3)|s cs Hs (IH1 & IH2 & IH3)|s cs Hs (IH1 & IH2 & IH3)].
  - rewrite pieces_one by now apply proper_noslash. cbn [filter]. rewrite (proper_ne _ Hc). cbn. split; [reflexivity|].
    split; [discriminate|]. constructor; [assumption|constructor].
  - rewrite pieces_app by now apply proper_noslash. cbn [filter]. rewrite (proper_ne _ Hc). cbn [negb].
    rewrite IH1. split; [reflexivity|]. split; [discriminate|]. now constructor.
  - cbn [pieces]. rewrite Ascii.eqb_refl. cbn [filter String.eqb negb]. auto.
  - rewrite pieces_trail, filter_app. cbn [filter String.eqb negb]. rewrite app_nil_r. auto.
Qed.

Lemma plain_proper cs : Forall proper cs -> plain cs = cs.
Proof.
  induction 1 as [|c cs Hc Hs IH]; [reflexivity|]. unfold plain in *. cbn [filter].
  rewrite (proper_dot _ Hc). cbn [negb]. now rewrite IH.
Qed.
Lemma last_proper cs : cs <> [] -> Forall proper cs -> (last cs "" =? ".")%string = false.
Proof.
  intros H HF. destruct (exists_last H) as (l & c & ->). rewrite last_last.
  rewrite Forall_app in HF. destruct HF as [_ HF]. inversion HF. now apply proper_dot.
Qed.
Lemma leading_true s : leading s = true <-> exists s', s = String "/" s'.
Proof.
  destruct s as [|c s]; cbn.
  - split; [discriminate|]. now intros [? ?].
  - split.
    + intro H. apply Ascii.eqb_eq in H. subst. now exists s.
    + intros [s' E]. injection E as -> ->. apply Ascii.eqb_refl.
Qed.
Lemma leading_false s : leading s = false <-> forall s', s <> String "/" s'.
Proof.
  split.
  - intros H s' E. assert (leading s = true) by (apply leading_true; eauto). congruence.
  - intro H. destruct (leading s) eqn:E; [|reflexivity]. apply leading_true in E. destruct E as [s' E]. now apply H in E.
Qed.
(** What a properly spelled name denotes. *)
Lemma denotes_facts cwd s p : denotes cwd s p ->
  tokens s <> [] /\ Forall proper (tokens s) /\ p = (if leading s then [] else cwd) ++ tokens s /\ h5_abs cwd s = p.
Proof.
  intros (cs & Hs & H). destruct (spells_tokens _ _ Hs) as (E & Hn & HF). rewrite E.
  split; [assumption|]. split; [assumption|].
  assert (Hp : p = (if leading s then [] else cwd) ++ cs).
  { destruct H as [[H ->]|[H ->]].
    - apply leading_true in H. now rewrite H.
    - apply leading_false in H. now rewrite H. }
  split; [assumption|]. unfold h5_abs. now rewrite E, plain_proper.
Qed.
Lemma spells_denotes cwd s cs : spells s cs -> denotes cwd s (h5_abs cwd s).
Proof.
  intro Hs. destruct (spells_tokens _ _ Hs) as (E & Hn & HF). exists cs. split; [assumption|].
  unfold h5_abs. rewrite E, plain_proper by assumption.
  destruct (leading s) eqn:L; [left|right]; (split; [|reflexivity]).
  - now apply leading_true.
  - now apply leading_false.
Qed.

(** ** Names of groups *)
Definition tail_of (p : path) : string := fold_right (fun c s => String slash (c ++ s)) ""%string p.
Lemma render_tail p : p <> [] -> render p = tail_of p.
Proof. destruct p; [contradiction|reflexivity]. Qed.
Lemma app_assoc_s (a b c : string) : ((a ++ b) ++ c)%string = (a ++ (b ++ c))%string.
Proof. induction a as [|x a IH]; cbn; [reflexivity|]. now rewrite IH. Qed.
Lemma tail_of_app p q : tail_of (p ++ q) = (tail_of p ++ tail_of q)%string.
Proof.
  induction p as [|c p IH]; [reflexivity|]. cbn [app tail_of fold_right append]. fold (tail_of (p ++ q)) (tail_of p).
  now rewrite IH, app_assoc_s.
Qed.
Lemma pieces_tail c p : noslash c -> Forall proper p -> pieces (c ++ tail_of p) = c :: p.
Proof.
  revert c. induction p as [|d p IH]; intros c Hc HF.
  - cbn. assert (E : (c ++ "")%string = c) by (clear; induction c as [|x c IH]; cbn; congruence). rewrite E. now apply pieces_one.
  - cbn [tail_of fold_right]. fold (tail_of p). inversion HF; subst.
    change (String slash (d ++ tail_of p)) with (String "/" (d ++ tail_of p)). rewrite pieces_app by assumption.
    rewrite IH; [reflexivity|now apply proper_noslash|assumption].
Qed.
Lemma tokens_render p : Forall proper p -> tokens (render p) = p.
Proof.
  intro HF. destruct p as [|c p]; [reflexivity|].
  inversion HF; subst. unfold tokens. rewrite render_tail by discriminate. cbn [tail_of fold_right]. fold (tail_of p).
  cbn [pieces]. rewrite Ascii.eqb_refl. cbn [filter String.eqb negb].
  rewrite pieces_tail by (try assumption; now apply proper_noslash).
  assert (K : forall l, Forall proper l -> filter (fun t => negb (t =? "")%string) l = l).
  { clear. induction 1 as [|x l Hx Hl IH]; [reflexivity|]. cbn. now rewrite (proper_ne _ Hx), IH. }
  now apply K.
Qed.
Lemma render_inj p q : Forall proper p -> Forall proper q -> render p = render q -> p = q.
Proof. intros Hp Hq E. rewrite <- (tokens_render p Hp), <- (tokens_render q Hq). now rewrite E. Qed.
Lemma render_leading p : leading (render p) = true.
Proof. destruct p; reflexivity. Qed.
Lemma abs_render loc p : Forall proper p -> h5_abs loc (render p) = p.
Proof. intro H. unfold h5_abs. rewrite render_leading, tokens_render by assumption. now apply plain_proper. Qed.
Lemma render_root p : Forall proper p -> (render p =? "/")%string = true <-> p = [].
Proof.
  intro H. split.
  - intro E. apply String.eqb_eq in E. apply (render_inj p []); [assumption|constructor|exact E].
  - intros ->. reflexivity.
Qed.

Lemma last_slash_noslash c : noslash c -> last_slash c = None.
Proof.
  induction c as [|x c IH]; intro H; [reflexivity|]. destruct (noslash_cons _ _ H) as [H1 H2].
  cbn. rewrite IH by assumption. now destruct (Ascii.eqb_spec x slash).
Qed.
Lemma last_slash_app a c : noslash c -> last_slash (a ++ String slash c) = Some (String.length a).
Proof.
  intro H. induction a as [|x a IH]; cbn.
  - rewrite last_slash_noslash by assumption. reflexivity.
  - now rewrite IH.
Qed.
Lemma substring_app a b : substring 0 (String.length a) (a ++ b) = a.
Proof. induction a as [|x a IH]; cbn; [now destruct b|]. now rewrite IH. Qed.
Lemma parent_render p c : Forall proper p -> proper c -> parent_dir (render (p ++ [c])) = render p.
Proof.
  intros Hp Hc. rewrite render_tail by (now destruct p). rewrite tail_of_app.
  assert (E : tail_of [c] = String slash c).
  { cbn. f_equal. clear. induction c as [|x c IH]; cbn; congruence. }
  rewrite E. unfold parent_dir. rewrite last_slash_app by now apply proper_noslash.
  destruct p as [|d p]; [reflexivity|].
  destruct (String.length (tail_of (d :: p))) eqn:L; [discriminate|]. rewrite <- L, substring_app. reflexivity.
Qed.

(** ** Trees *)
Lemma tree_up F p r : tree F -> obj F (p ++ r) <> None -> r <> [] -> obj F p = Some Group.
Proof.
  intros (_ & HT & _) H Hr. revert H. induction r as [|c r IH] using rev_ind; [contradiction|].
  intro H. rewrite app_assoc in H. apply HT in H.
  destruct r as [|d r]; [now rewrite app_nil_r in H|]. apply IH; [discriminate|]. rewrite H. discriminate.
Qed.
Lemma tree_proper F p : tree F -> obj F p <> None -> Forall proper p.
Proof. intros (_ & _ & H & _). apply H. Qed.
Lemma good_proper x : good x -> Forall proper (s_cwd x).
Proof. intros (HT & HG & _). apply (tree_proper (s_file x)); [assumption|]. unfold is_group in HG. rewrite HG. discriminate. Qed.

Lemma firstn_proper k ts : Forall proper ts -> Forall proper (firstn k ts).
Proof. revert ts. induction k as [|k IH]; intros [|t ts] H; cbn; try constructor; inversion H; subst; auto. Qed.

Section P.
  Variables (dot : bool) (att_max : nat).
  Lemma lexists_proper F loc ts : ts <> [] -> Forall proper ts ->
    h5_lexists dot F loc ts = true <-> obj F (loc ++ ts) <> None.
  Proof.
    intros Hn HF. unfold h5_lexists. rewrite last_proper, plain_proper by assumption.
    destruct (obj F (loc ++ ts)); split; congruence.
  Qed.
  Lemma exists_ok F loc s p : tree F -> denotes loc s p ->
    object_exists dot F loc s = Some (match obj F p with Some _ => true | None => false end).
  Proof.
    intros HT HD. destruct (denotes_facts _ _ _ HD) as (Hn & HF & Hp & _). unfold object_exists.
    set (start := if leading s then [] else loc) in *. set (ts := tokens s) in *.
    assert (E : forallb (fun k => h5_lexists dot F start (firstn k ts)) (seq 1 (length ts)) = match obj F p with Some _ => true | None => false end).
    { apply Bool.eq_true_iff_eq. rewrite forallb_forall. split.
      - intro H. specialize (H (length ts)). rewrite firstn_all in H.
        assert (Hin : In (length ts) (seq 1 (length ts))).
        { apply in_seq. assert (length ts <> 0) by (now destruct ts). lia. }
        apply H, lexists_proper in Hin; try assumption. rewrite <- Hp in Hin. now destruct (obj F p).
      - intros H k Hk. apply in_seq in Hk.
        apply lexists_proper; [intro E0; apply (f_equal (@length _)) in E0; rewrite firstn_length in E0; cbn in E0; lia| |].
        + now apply firstn_proper.
        + destruct (Nat.eq_dec k (length ts)) as [->|Hne].
          * rewrite firstn_all, <- Hp. now destruct (obj F p).
          * rewrite (tree_up F (start ++ firstn k ts) (skipn k ts)); [discriminate|assumption| |].
            -- rewrite <- app_assoc, firstn_skipn, <- Hp. now destruct (obj F p).
            -- intro E. apply (f_equal (@length _)) in E. rewrite skipn_length in E. cbn in E. lia. }
    destruct ts as [|t ts']; [contradiction|]. now rewrite E.
  Qed.

  (** ** pop and cd *)
  Lemma pop_ok x : good x ->
    exists y, pop x = Ok y /\ good y /\ s_file y = s_file x /\ s_cwd y = removelast (s_cwd x) /\
      (s_cwd x = [] -> y = x) /\ (s_cwd x <> [] -> g_id (s_cur y) = s_next x) /\ s_next x <= s_next y.
  Proof.
    intro HG. pose proof (good_proper _ HG) as HP. destruct HG as (HT & HC & HI). unfold pop, pwd.
    destruct (String.eqb (render (s_cwd x)) "/") eqn:E.
    - apply render_root in E; [|assumption]. exists x. rewrite E. split; [reflexivity|]. repeat split; try assumption; try lia; try contradiction; try apply HT.
    - assert (Hne : s_cwd x <> []) by (intro H; rewrite H in E; discriminate).
      destruct (exists_last Hne) as (p & c & Ep). unfold is_group in HC. rewrite Ep in *.
      apply Forall_app in HP. destruct HP as [HP1 HP2]. inversion HP2; subst.
      rewrite parent_render by assumption. unfold h5_gopen. rewrite abs_render by assumption.
      assert (Hg : obj (s_file x) p = Some Group).
      { apply (tree_up _ p [c]); [assumption|rewrite HC; discriminate|discriminate]. }
      rewrite Hg. eexists. split; [reflexivity|]. split; [|split; [reflexivity|]].
      + split; [exact HT|]. split; [exact Hg|]. cbn. lia.
      + cbn. rewrite removelast_last. split; [reflexivity|]. split; [now destruct p|]. split; [reflexivity|lia].
  Qed.

  Lemma pop_to_root_ok x : good x ->
    exists y, (forall fuel, length (s_cwd x) <= fuel -> pop_to_root fuel x = Ok y) /\
      good y /\ s_file y = s_file x /\ s_cwd y = [] /\ s_next x <= s_next y.
  Proof.
    remember (length (s_cwd x)) as n eqn:En. revert x En. induction n as [|n IH]; intros x En HG.
    - exists x. assert (E : s_cwd x = []) by (destruct (s_cwd x); [reflexivity|discriminate]).
      split; [|repeat split; try assumption; try apply HG; lia].
      intros fuel _. destruct fuel; cbn [pop_to_root]; unfold pwd; rewrite E; reflexivity.
    - destruct (pop_ok x HG) as (y & Ey & Gy & Fy & Cy & _ & _ & Ny).
      destruct (IH y) as (z & Hz & Gz & Fz & Cz & Nz); [|assumption|].
      { rewrite Cy. assert (Hne : s_cwd x <> []) by (intro H; rewrite H in En; discriminate).
        destruct (exists_last Hne) as (p & c & Ep). rewrite Ep in *. rewrite removelast_last. rewrite app_length in En. cbn in En. lia. }
      exists z. split; [|split; [assumption|split; [congruence|split; [assumption|lia]]]].
      intros [|fuel] Hf; [lia|]. cbn [pop_to_root]. unfold pwd.
      destruct (String.eqb (render (s_cwd x)) "/") eqn:E.
      + apply render_root in E; [|now apply good_proper]. rewrite E in En. discriminate.
      + rewrite Ey. cbn [obind]. apply Hz. lia.
  Qed.
  (** Whatever the number of turns: if the loop ends, nothing but the working group changed. *)
  Lemma pop_to_root_any fuel x : good x ->
    match pop_to_root fuel x with Ok y => good y /\ s_file y = s_file x /\ s_next x <= s_next y | Running => True | _ => False end.
  Proof.
    revert x. induction fuel as [|f IH]; intros x HG; cbn [pop_to_root];
      destruct (String.eqb (pwd x) "/"); [repeat split; try apply HG; lia|exact I|repeat split; try apply HG; lia|].
    destruct (pop_ok x HG) as (y & Ey & Gy & Fy & _ & _ & _ & Ny). rewrite Ey. cbn [obind].
    specialize (IH y Gy). destruct (pop_to_root f y); try assumption. destruct IH as (H1 & H2 & H3). split; [assumption|]. split; [congruence|lia].
  Qed.
  Lemma pop_to_id_never fuel id x : good x -> g_id (s_cur x) <> id -> id < s_next x -> pop_to_id fuel id x = Running.
  Proof.
    revert x. induction fuel as [|f IH]; intros x HG Hne Hn; cbn [pop_to_id];
      destruct (Nat.eqb_spec (g_id (s_cur x)) id) as [E|_]; try contradiction; [reflexivity|].
    destruct (pop_ok x HG) as (y & Ey & Gy & Fy & Cy & Y1 & Y2 & Ny). rewrite Ey. cbn [obind].
    apply IH; [assumption| |lia].
    destruct (s_cwd x) as [|c p] eqn:E.
    - now rewrite (Y1 eq_refl).
    - rewrite Y2 by discriminate. lia.
  Qed.

  Lemma prefix_nil s : prefix "" s = true.
  Proof. now destruct s. Qed.
  Lemma prefix_refl s : prefix s s = true.
  Proof. induction s as [|c s IH]; [reflexivity|]. cbn. now destruct (ascii_dec c c). Qed.
  Lemma prefix_split a b : prefix a b = true -> exists c, b = (a ++ c)%string.
  Proof.
    revert b. induction a as [|x a IH]; intros b H; [now exists b|].
    destruct b as [|y b]; [discriminate|]. cbn in H. destruct (ascii_dec x y) as [->|]; [|discriminate].
    destruct (IH b H) as [c ->]. now exists c.
  Qed.
  Lemma length_app a b : String.length (a ++ b) = String.length a + String.length b.
  Proof. induction a as [|x a IH]; cbn; [reflexivity|]. now rewrite IH. Qed.
  Lemma substring_len n m s : String.length (substring n m s) <= String.length s - n.
  Proof.
    revert n m. induction s as [|c s IH]; intros n m; destruct n, m; cbn; try lia.
    - specialize (IH 0 m). lia.
    - apply IH.
    - apply IH.
  Qed.
  Lemma index_len a b n : index 0 a b = Some n -> String.length a <= String.length b.
  Proof. intro H. apply index_correct1 in H. rewrite <- H. pose proof (substring_len n (String.length a) b). lia. Qed.
  Lemma index_self s : index 0 s s <> None.
  Proof. destruct s as [|c s]; cbn; [discriminate|]. destruct (ascii_dec c c); [|contradiction]. now rewrite prefix_refl. Qed.
  (** The second branch of cd is taken only for the working group itself. *)
  Lemma only_self ndir cdir n : index 0 cdir ndir = Some n -> prefix ndir cdir = true -> ndir = cdir.
  Proof.
    intros HI HP. apply index_len in HI. apply prefix_split in HP. destruct HP as [c ->].
    rewrite length_app in HI. assert (c = ""%string) by (destruct c; [reflexivity|cbn in HI; lia]). subst.
    clear. induction ndir as [|x s IH]; cbn; congruence.
  Qed.

  Lemma cd_group x s p : good x -> s <> ".."%string -> h5_abs (s_cwd x) s = p -> is_group (s_file x) p -> p <> s_cwd x ->
    exists y, ends (fun fuel => cd fuel s x) (Ok y) /\ good y /\ s_file y = s_file x /\ s_cwd y = p.
  Proof.
    intros HG Hs HA HP Hne. pose proof (good_proper _ HG) as HC. unfold is_group in HP.
    assert (HPp : Forall proper p) by (apply (tree_proper (s_file x)); [apply HG|rewrite HP; discriminate]).
    set (g := mkG (s_next x) p). set (x1 := mkS (s_file x) (s_cur x) (S (s_next x))).
    assert (G1 : good x1) by (destruct HG as (A & B & C); split; [exact A|split; [exact B|cbn; lia]]).
    assert (Hcd : forall fuel, cd fuel s x =
      obind (if (match index 0 (pwd x) (render p) with None => true | _ => false end) || (render p =? "/")%string then pop_to_root fuel x1
                    else if prefix (render p) (pwd x) then pop_to_id fuel (g_id g) x1
                    else Ok x1)
               (fun x2 => Ok (mkS (s_file x2) g (s_next x2)))).
    { intro fuel. unfold cd. destruct (String.eqb_spec s "..") as [E|_]; [contradiction|].
      destruct (String.eqb_spec s (pwd x)) as [E|_].
      - exfalso. apply Hne. rewrite <- HA, E. unfold pwd. now rewrite abs_render.
      - unfold h5_gopen. rewrite HA, HP. reflexivity. }
    destruct ((match index 0 (pwd x) (render p) with None => true | _ => false end) || (render p =? "/")%string) eqn:B1.
    - destruct (pop_to_root_ok x1 G1) as (y & Hy & Gy & Fy & Cy & Ny).
      exists (mkS (s_file y) g (s_next y)). split; [|split; [|split]].
      + exists (length (s_cwd x1)). intros fuel Hf. rewrite Hcd, Hy by assumption. reflexivity.
      + split; [apply Gy|]. split; [cbn; rewrite Fy; exact HP|]. cbn in *. lia.
      + exact Fy.
      + reflexivity.
    - apply orb_false_iff in B1. destruct B1 as [B1 _]. destruct (index 0 (pwd x) (render p)) as [n|] eqn:B3; [|discriminate].
      destruct (prefix (render p) (pwd x)) eqn:B4.
      + exfalso. apply Hne. apply render_inj; try assumption. eapply only_self; eassumption.
      + exists (mkS (s_file x) g (S (s_next x))). split; [|split; [|split; reflexivity]].
        * exists 0. intros fuel _. rewrite Hcd. reflexivity.
        * split; [apply HG|]. split; [exact HP|]. cbn. lia.
  Qed.
  Lemma cd_self x s : good x -> s <> ".."%string -> h5_abs (s_cwd x) s = s_cwd x -> s <> pwd x -> s_cwd x <> [] ->
    never_ends (fun fuel => cd fuel s x).
  Proof.
    intros HG Hs HA Hp Hne fuel. pose proof (good_proper _ HG) as HC. unfold cd.
    destruct (String.eqb_spec s "..") as [E|_]; [contradiction|].
    destruct (String.eqb_spec s (pwd x)) as [E|_]; [contradiction|].
    assert (HGr : obj (s_file x) (s_cwd x) = Some Group) by apply HG.
    unfold h5_gopen. rewrite HA, HGr. cbn [g_path g_id].
    change (render (s_cwd x)) with (pwd x).
    destruct (index 0 (pwd x) (pwd x)) eqn:I; [|now apply index_self in I].
    destruct (String.eqb (pwd x) "/") eqn:R.
    { exfalso. apply Hne. now apply render_root. }
    cbn [orb]. rewrite prefix_refl. rewrite pop_to_id_never; [reflexivity| | |].
    - destruct HG as (A & B & C). split; [exact A|split; [exact B|cbn; lia]].
    - destruct HG as (A & B & C). cbn. lia.
    - cbn. lia.
  Qed.
  (** Any name and any number of turns. *)
  Lemma cd_any fuel s x : good x ->
    match cd fuel s x with Ok y => good y /\ s_file y = s_file x | Running => True | _ => False end.
  Proof.
    intro HG. unfold cd. destruct (String.eqb s "..").
    { destruct (pop_ok x HG) as (y & Ey & Gy & Fy & _). rewrite Ey. split; assumption. }
    destruct (String.eqb s (pwd x)); [split; [assumption|reflexivity]|].
    unfold h5_gopen. destruct (obj (s_file x) (h5_abs (s_cwd x) s)) as [[|d|t]|] eqn:HO; try (split; [assumption|reflexivity]).
    cbn [g_path g_id]. set (x1 := mkS (s_file x) (s_cur x) (S (s_next x))). set (p := h5_abs (s_cwd x) s) in *.
    assert (G1 : good x1) by (destruct HG as (A & B & C); split; [exact A|split; [exact B|cbn; lia]]).
    assert (K : forall y, good y -> s_file y = s_file x -> S (s_next x) <= s_next y ->
       good (mkS (s_file y) (mkG (s_next x) p) (s_next y)) /\ s_file y = s_file x).
    { intros y Gy Fy Ny. split; [|assumption]. split; [apply Gy|]. split; [cbn; rewrite Fy; exact HO|cbn; lia]. }
    destruct ((match index 0 (pwd x) (render p) with None => true | _ => false end) || (render p =? "/")%string).
    - pose proof (pop_to_root_any fuel x1 G1) as H. destruct (pop_to_root fuel x1) as [y| | |]; cbn [obind]; try exact H.
      destruct H as (Gy & Fy & Ny). exact (K y Gy Fy Ny).
    - destruct (prefix (render p) (pwd x)).
      + rewrite pop_to_id_never; [exact I|assumption| |].
        * destruct HG as (A & B & C). cbn. lia.
        * cbn. lia.
      + cbn [obind]. exact (K x1 G1 eq_refl (le_n _)).
  Qed.
End P.

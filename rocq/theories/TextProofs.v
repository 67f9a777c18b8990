From Coq Require Import List Arith NArith ZArith Bool Lia.
From Verif Require Import Base NerscHeader NerscText XmlModel XmlSpec XmlProofs TextModel TextSpec.
Import ListNotations.
Local Open Scope nat_scope.

(** ** get in terms of extract *)
Lemma get_int_got k old ws tok neg m r z :
  spaces ws -> numeral tok neg m -> stops r -> fits k neg m = Some z ->
  get (TInt k) old (opened (ws ++ tok ++ r)) = (I z, mkIst r (at_end r) false).
Proof.
  intros Hw Hn Hr Hf. pose proof (extract_numeral k ws tok neg m r Hw Hn Hr) as E. rewrite Hf in E.
  unfold extract in E. unfold get, opened. cbn [eofb failb orb rest].
  destruct (skip_ws (ws ++ tok ++ r)) as [|c s]; [discriminate|]. destruct (sign (c :: s)) as [ng s2].
  destruct (digits 10 0 0 s2) as [[n v] r']. destruct n; [discriminate|].
  destruct (fits k ng v); [|discriminate]. now injection E as -> ->.
Qed.
Lemma stops_space ws r : ws <> [] -> spaces ws -> stops (ws ++ r).
Proof.
  intros H S. destruct ws as [|c ws]; [congruence|]. inversion S; subst. intros d r' E. injection E as <- _.
  intros D. apply digit_no_space in D. congruence.
Qed.
Lemma fits_in_kind k z neg m : in_kind k z -> signed_value neg m = z -> fits k neg m = Some z.
Proof.
  intros H V. unfold fits. change (if neg then (- Z.of_N m)%Z else Z.of_N m) with (signed_value neg m). rewrite V.
  destruct k as [b|b|]; cbn in H.
  - replace ((- 2 ^ (Z.of_nat b - 1) <=? z)%Z && (z <? 2 ^ (Z.of_nat b - 1))%Z) with true; [reflexivity|]. symmetry. apply andb_true_iff. lia.
  - destruct (Z.ltb_spec (Z.of_N m) (2 ^ Z.of_nat b)%Z) as [L|L].
    + now rewrite Z.mod_small.
    + unfold signed_value in V. destruct neg; lia.
  - destruct H as [->| ->]; reflexivity.
Qed.
Lemma get_show k old ws z r : in_kind k z -> spaces ws -> stops r ->
  get (TInt k) old (opened (ws ++ show_int z ++ r)) = (I z, mkIst r (at_end r) false).
Proof.
  intros H Hw Hr. destruct (show_int_numeral z) as (neg & m & Hn & Hv). eapply get_int_got; eauto using fits_in_kind.
Qed.

(** ** Words *)
Lemma word_all s : Forall (fun c => is_space c = false) s -> word_of s = s.
Proof. induction 1 as [|c s H _ IH]; [reflexivity|]. cbn [word_of]. now rewrite H, IH. Qed.
Lemma word_stop s r : Forall (fun c => is_space c = false) s -> r <> [] -> spaces r -> forall t, word_of (s ++ r ++ t) = s.
Proof.
  intros H Hr Sr t. induction H as [|c s H _ IH]; cbn [app word_of].
  - destruct r as [|c r]; [congruence|]. inversion Sr; subst. cbn [app word_of]. rewrite H1. reflexivity.
  - rewrite H. now rewrite IH.
Qed.
Lemma to_nul_all s : Forall (fun c => c <> 0%N) s -> to_nul s = s.
Proof.
  induction 1 as [|c s H _ IH]; [reflexivity|]. cbn [to_nul]. destruct (N.eqb_spec c 0); [contradiction|]. now rewrite IH.
Qed.
Lemma to_nul_no_nul s : Forall (fun c => c <> 0%N) (to_nul s).
Proof.
  induction s as [|c s IH]; cbn [to_nul]; [constructor|]. destruct (N.eqb_spec c 0); constructor; auto.
Qed.
Lemma word_no_space s : Forall (fun c => is_space c = false) (word_of s).
Proof. induction s as [|c s IH]; cbn [word_of]; [constructor|]. destruct (is_space c) eqn:E; constructor; auto. Qed.
Lemma skip_ws_head s : match skip_ws s with [] => True | c :: _ => is_space c = false end.
Proof. induction s as [|c s IH]; cbn [skip_ws]; [exact Logic.I|]. destruct (is_space c) eqn:E; [exact IH|exact E]. Qed.
Lemma get_word old ws s sep t : spaces ws -> carried s -> sep <> [] -> spaces sep ->
  get TWord old (opened (ws ++ s ++ sep ++ t)) = (W s, mkIst (sep ++ t) false false).
Proof.
  intros Hw [Hs Hc] Hn Hsep. unfold get, opened. cbn [eofb failb orb rest]. rewrite skip_spaces by exact Hw.
  assert (Hc' : Forall (fun c => is_space c = false) s) by (eapply Forall_impl; [|exact Hc]; cbn; tauto).
  pose proof (word_stop s sep Hc' Hn Hsep t) as E.
  destruct s as [|c s]; [congruence|]. inversion Hc' as [|? ? X _]; subst. cbn [app] in *. rewrite skip_cons by exact X.
  cbv zeta. rewrite E. change (c :: s ++ sep ++ t) with ((c :: s) ++ sep ++ t). rewrite skipn_app, skipn_all2 by lia. replace (length (c :: s) - length (c :: s)) with 0 by lia.
  cbn [skipn app]. do 2 f_equal. destruct sep; [congruence|reflexivity].
Qed.
Lemma get_char old ws c t : spaces ws -> is_space c = false ->
  get TCh old (opened (ws ++ c :: t)) = (C c, mkIst t false false).
Proof.
  intros Hw Hc. unfold get, opened. cbn [eofb failb orb rest]. rewrite skip_spaces by exact Hw.
  now rewrite skip_cons by exact Hc.
Qed.

(** One piece, with white space left over from the one before. *)
Lemma get_piece p ws t old r : spaces ws -> fine_piece p ->
  exists v st, get (ptype p) old (opened (ws ++ show (pval p) ++ psep p ++ t)) = (v, opened st)
    /\ as_sent r v = pval p /\ st = psep p ++ t.
Proof.
  intros Hw (Hf & Hn & Hs). destruct p as [ty x v sep]. cbn [ptype pval psep pvar] in *.
  destruct ty as [k| |], v as [z|c|s]; cbn in Hf; try contradiction; cbn [show].
  - eexists; eexists. rewrite (get_show k old ws z (sep ++ t)); auto using stops_space.
    split; [|split; [|reflexivity]].
    + unfold opened. f_equal. destruct sep; [congruence|reflexivity].
    + now destruct r.
  - eexists; eexists. cbn [app]. rewrite (get_char old ws c (sep ++ t)) by auto. split; [reflexivity|]. split; [now destruct r|reflexivity].
  - eexists; eexists. rewrite (get_word old ws s sep t) by auto. split; [reflexivity|]. split; [|reflexivity].
    destruct r; [|reflexivity]. cbn. rewrite to_nul_all; [reflexivity|]. destruct Hf as [_ Hf]. eapply Forall_impl; [|exact Hf]. cbn; tauto.
Qed.

Lemma read_pieces r l : Forall fine_piece l -> forall ws e, spaces ws ->
  exists e' ws', read_prog r (program l) e (opened (ws ++ written l)) = (e', opened ws') /\ spaces ws' /\
    (forall n x, (forall p, In p l -> pvar p <> x) -> e' n x = e n x) /\
    (NoDup (map pvar l) -> forall p n, In p l -> e' n (pvar p) = pval p).
Proof.
  induction 1 as [|p l Hp Hl IH]; intros ws e Hw; cbn [program map written flat_map read_prog].
  - exists e, ws. rewrite app_nil_r. repeat split; auto. intros _ p n [].
  - fold (written l); fold (program l). unfold read_var. rewrite <- app_assoc.
    destruct (get_piece p ws (written l) (e 0 (pvar p)) r Hw Hp) as (v & st & E & Hv & ->).
    rewrite E. rewrite Hv.
    destruct (IH (psep p) (fun n y => if y =? pvar p then pval p else e n y)) as (e' & ws' & E' & Hw' & Ho & Hi).
    { apply Hp. }
    rewrite E'. exists e', ws'. split; [reflexivity|]. split; [exact Hw'|]. split.
    + intros n x Hx. rewrite Ho by (intros q Hq; apply Hx; now right). destruct (Nat.eqb_spec x (pvar p)) as [->|]; [|reflexivity].
      exfalso. apply (Hx p); [now left|reflexivity].
    + intros ND q n Hq. cbn [map] in ND. inversion ND as [|? ? Nin ND']; subst. destruct Hq as [<-|Hq].
      * rewrite Ho. { now rewrite Nat.eqb_refl. } intros q Hq X. apply Nin. rewrite <- X. now apply in_map.
      * now apply Hi.
Qed.

(** ** Agreement *)
Lemma read_agree r p : forall e st, let e' := fst (read_prog r p e st) in
  forall x, (In x (map snd p) -> forall n, e' n x = e' 0 x) /\ (~ In x (map snd p) -> forall n, e' n x = e n x).
Proof.
  induction p as [|[t y] p IH]; intros e st e' x; cbn [map snd In].
  - split; [tauto|reflexivity].
  - subst e'. cbn [read_prog]. unfold read_var. destruct (get t (e 0 y) st) as [v st'].
    specialize (IH (fun n z => if z =? y then as_sent r v else e n z) st' x). cbv zeta in IH. destruct IH as [A B].
    destruct (in_dec Nat.eq_dec x (map snd p)) as [I|I].
    + split; [intros _; now apply A|tauto].
    + specialize (B I). split.
      * intros [<-|X]; [|contradiction]. intros n. rewrite !B. now rewrite Nat.eqb_refl.
      * intros X n. rewrite B. destruct (Nat.eqb_spec x y) as [->|]; [tauto|reflexivity].
Qed.
Lemma get_stuck t old st : eofb st = true \/ failb st = true -> get t old st = (old, mkIst (rest st) (eofb st) true).
Proof. intros H. unfold get. replace (eofb st || failb st) with true; [reflexivity|]. destruct H as [->| ->]; [reflexivity|now rewrite orb_true_r]. Qed.
Lemma get_parts_stuck k olds st : failb st = true -> failb (snd (get_parts k olds st)) = true.
Proof.
  revert st. induction olds as [|o olds IH]; intros st H; [exact H|]. cbn [get_parts]. rewrite get_stuck by now right.
  specialize (IH (mkIst (rest st) (eofb st) true) eq_refl). now destruct (get_parts k olds (mkIst (rest st) (eofb st) true)).
Qed.

(** ** Numbers without white space between *)
Lemma get_numeral_all k old tok neg m : numeral tok neg m ->
  exists v f, get (TInt k) old (opened tok) = (v, mkIst [] true f).
Proof.
  intros Hn. destruct (numeral_head tok neg m [] Hn) as (c & t & E & Hc). rewrite app_nil_r in E.
  unfold get, opened. cbn [eofb failb orb rest]. rewrite E, skip_cons by exact Hc. rewrite <- E.
  assert (S : exists ds, sign tok = (neg, ds) /\ dec_digits ds).
  { clear E. destruct Hn as [s H|s H|s H]; exists s; (split; [|exact H]); try reflexivity.
    destruct H as [H F]. destruct s as [|d s]; [congruence|]. unfold sign. inversion F; subst.
    destruct (N.eqb_spec d 45); [lia|]. destruct (N.eqb_spec d 43); [lia|]. reflexivity. }
  destruct S as (ds & -> & [Hd HF]). pose proof (digits_run ds HF 0 0%N [] stops_nil) as D. rewrite app_nil_r in D. rewrite D.
  destruct ds as [|d ds]; [congruence|]. cbn [Nat.add length].
  destruct (fits k neg _); eexists; eexists; reflexivity.
Qed.
Lemma numeral_more tok neg m ds : numeral tok neg m -> Forall (fun c => (48 <= c <= 57)%N) ds -> exists m', numeral (tok ++ ds) neg m'.
Proof.
  intros Hn Hd. destruct Hn as [s [H F]|s [H F]|s [H F]]; eexists; cbn [app];
    [apply num_plain|apply num_plus|apply num_minus]; (split; [destruct s; [congruence|discriminate]|apply Forall_app; auto]).
Qed.
Lemma show_int_digits z : (0 <= z)%Z -> Forall (fun c => (48 <= c <= 57)%N) (show_int z).
Proof. intros H. destruct z; try lia; cbn [show_int]; apply show_nat_digits. Qed.
Lemma show_parts_digits l : Forall (fun z => 0 <= z)%Z l -> Forall (fun c => (48 <= c <= 57)%N) (show_parts l).
Proof.
  unfold show_parts. induction 1 as [|z l H _ IH]; cbn [map concat]; [constructor|]. apply Forall_app. split; [now apply show_int_digits|exact IH].
Qed.
(** Seeds *)
Lemma get_seed k l : Forall (in_kind k) l -> forall olds ws, length olds = length l -> spaces ws ->
  exists ws', get_parts k olds (opened (ws ++ show_seed l)) = (l, opened ws') /\ spaces ws'.
Proof.
  induction 1 as [|z l Hz Hl IH]; intros olds ws L Hw; destruct olds as [|o olds]; try discriminate.
  - exists ws. cbn [get_parts show_seed map concat]. rewrite app_nil_r. auto.
  - cbn [get_parts]. unfold show_seed. cbn [map concat]. rewrite <- app_assoc.
    rewrite get_show; [|assumption|assumption|apply stops_space; [discriminate|constructor; [reflexivity|constructor]]].
    destruct (IH olds [10%N]) as (ws' & E & Hw').
    { injection L as L. exact L. }
    { constructor; [reflexivity|constructor]. }
    change (mkIst _ (at_end _) false) with (opened ([10%N] ++ show_seed l)).
    rewrite E. exists ws'. auto.
Qed.

(** ** Files *)
Lemma frun_app k l1 l2 f : frun k (l1 ++ l2) f = obind (frun k l1 f) (frun k l2).
Proof.
  unfold frun. revert f. induction l1 as [|c l1 IH]; intros f; cbn [app ofold]; [reflexivity|].
  destruct (fexec k c f); cbn [obind]; [apply IH|reflexivity..].
Qed.
Lemma frun_writes k l : forall d name t, d name = Some t ->
  exists d', frun k (map FWrite l) (mkF d (Some name) false) = Ret (mkF d' (Some name) false)
    /\ d' name = Some (t ++ concat l) /\ forall n, n <> name -> d' n = d n.
Proof.
  induction l as [|s l IH]; intros d name t H; cbn [map concat].
  - exists d. rewrite app_nil_r. auto.
  - unfold frun. cbn [ofold fexec ffail cur disk obind].
    destruct (IH (fun n => if n =? name then option_map (fun t => t ++ s) (d n) else d n) name (t ++ s)) as (d' & E & E1 & E2).
    { rewrite Nat.eqb_refl, H. reflexivity. }
    unfold frun in E. rewrite E. exists d'. split; [reflexivity|]. rewrite E1, app_assoc. split; [reflexivity|].
    intros n Hn. rewrite E2 by exact Hn. destruct (Nat.eqb_spec n name); [contradiction|reflexivity].
Qed.
Lemma frun_failed k l : forall d c, frun k (map FWrite l) (mkF d c true) = Ret (mkF d c true).
Proof. induction l as [|s l IH]; intros; [reflexivity|]. unfold frun. cbn [map ofold fexec ffail obind]. apply IH. Qed.
Lemma fexec_open k d ff name : fexec k (FOpen name) (mkF d None ff)
  = Ret (mkF (fun n => if n =? name then Some [] else d n) (Some name) false).
Proof. destruct k; reflexivity. Qed.
Lemma frun_session k s d ff : exists d', frun k (session s) (mkF d None ff) = Ret (mkF d' None false)
  /\ forall n, d' n = if fst s =? n then Some (concat (snd s)) else d n.
Proof.
  destruct s as [name l]. unfold session. cbn [fst snd]. change (FOpen name :: map FWrite l ++ [FClose]) with ([FOpen name] ++ (map FWrite l ++ [FClose])).
  rewrite frun_app. unfold frun at 1. cbn [ofold]. rewrite fexec_open. cbn [obind]. rewrite frun_app.
  destruct (frun_writes k l (fun n => if n =? name then Some [] else d n) name []) as (d' & E & E1 & E2).
  { now rewrite Nat.eqb_refl. }
  rewrite E. exists d'. split; [reflexivity|]. intros n. destruct (Nat.eqb_spec name n) as [<-|N]; [exact E1|].
  rewrite E2 by congruence. destruct (Nat.eqb_spec n name); [congruence|reflexivity].
Qed.
Lemma frun_sessions k l : forall d ff, exists d' ff', frun k (flat_map session l) (mkF d None ff) = Ret (mkF d' None ff')
  /\ forall n, d' n = holds l (d n) n.
Proof.
  induction l as [|s l IH]; intros d ff; cbn [flat_map holds]; [exists d, ff; auto|].
  rewrite frun_app. destruct (frun_session k s d ff) as (d1 & E & H). rewrite E. cbn [obind].
  destruct (IH d1 false) as (d' & ff' & E' & H'). rewrite E'. exists d', ff'. split; [reflexivity|].
  intros n. rewrite H'. now rewrite H.
Qed.
Lemma skipn_twice {A} n (l : list A) : forall m, skipn m (skipn n l) = skipn (n + m) l.
Proof.
  revert l. induction n as [|n IH]; intros l m; [reflexivity|]. destruct l as [|a l]; [now rewrite !skipn_nil|]. cbn [skipn Nat.add]. apply IH.
Qed.

(** Proofs about XML input and output: numbers as text, and what writing builds. *)
From Coq Require Import String List Arith NArith ZArith Bool Sorted Ascii Lia.
From Verif Require Import Base NerscHeader NerscText XmlModel XmlSpec.
Import ListNotations.
Local Open Scope nat_scope.
Local Notation length := List.length.

Lemma obind_ret {A} (r : out A) : obind r Ret = r.
Proof. now destruct r. Qed.
Lemma omap_ok {A B} (f : A -> out B) (g : A -> B) l : Forall (fun a => f a = Ret (g a)) l -> omap f l = Ret (map g l).
Proof. induction 1 as [|a l H _ IH]; [reflexivity|]. cbn [omap map]. rewrite H. cbn [obind]. rewrite IH. reflexivity. Qed.

(** ** Digits *)
Lemma digit10 c : (48 <= c <= 57)%N -> digit 10 c = Some (c - 48)%N.
Proof.
  intros H. unfold digit. replace ((48 <=? c) && (c <=? 57))%N with true by lia.
  destruct (N.ltb_spec (c - 48) 10); [reflexivity|lia].
Qed.
Lemma digit10_none c : ~ (48 <= c <= 57)%N -> digit 10 c = None.
Proof.
  intros H. unfold digit. replace ((48 <=? c) && (c <=? 57))%N with false by lia.
  destruct ((97 <=? c) && (c <=? 102))%N eqn:E1.
  - destruct (N.ltb_spec (c - 87) 10); [lia|reflexivity].
  - destruct ((65 <=? c) && (c <=? 70))%N eqn:E2; [|reflexivity]. destruct (N.ltb_spec (c - 55) 10); [lia|reflexivity].
Qed.
Definition stops (r : list N) : Prop := forall c r', r = c :: r' -> ~ (48 <= c <= 57)%N.
Lemma digits_run ds : Forall (fun c => (48 <= c <= 57)%N) ds -> forall n a r, stops r ->
  digits 10 n a (ds ++ r) = (n + length ds, fold_left (fun a c => (10 * a + (c - 48))%N) ds a, r).
Proof.
  induction 1 as [|c ds H _ IH]; intros n a r Hr.
  - cbn [app length fold_left]. rewrite Nat.add_0_r. destruct r as [|c r]; [reflexivity|]. cbn [digits].
    rewrite digit10_none; [reflexivity|]. exact (Hr c r eq_refl).
  - cbn [app digits length fold_left]. rewrite digit10 by exact H. rewrite IH by exact Hr. f_equal. f_equal. lia.
Qed.
Lemma skip_spaces ws s : spaces ws -> skip_ws (ws ++ s) = skip_ws s.
Proof. induction 1 as [|c ws H _ IH]; [reflexivity|]. cbn [app skip_ws]. now rewrite H. Qed.
Lemma skip_spaces_all ws : spaces ws -> skip_ws ws = [].
Proof. intros H. rewrite <- (app_nil_r ws). now rewrite skip_spaces. Qed.
Lemma skip_cons c s : is_space c = false -> skip_ws (c :: s) = c :: s.
Proof. intros H. cbn [skip_ws]. now rewrite H. Qed.
Lemma digit_no_space c : (48 <= c <= 57)%N -> is_space c = false.
Proof. unfold is_space. lia. Qed.

(** What extraction does with a numeral *)
Lemma numeral_head tok neg m r : numeral tok neg m -> exists c t, tok ++ r = c :: t /\ is_space c = false.
Proof.
  destruct 1 as [s [H F]|s [H F]|s [H F]]; destruct s as [|c s]; try congruence; cbn [app]; eexists; eexists; (split; [reflexivity|]).
  - inversion F; subst. now apply digit_no_space.
  - reflexivity.
  - reflexivity.
Qed.
Lemma extract_numeral k ws tok neg m r : spaces ws -> numeral tok neg m -> stops r ->
  extract k (ws ++ tok ++ r) = match fits k neg m with Some z => Got z r | None => Fail (at_end r) end.
Proof.
  intros Hw Ht Hr. unfold extract. rewrite skip_spaces by exact Hw.
  destruct (numeral_head tok neg m r Ht) as (c & t & E & Hc). rewrite E, skip_cons by exact Hc. rewrite <- E.
  assert (S : exists ds, sign (tok ++ r) = (neg, ds ++ r) /\ dec_digits ds /\ m = dec_value ds).
  { destruct Ht as [s H|s H|s H]; exists s; (split; [|split; [exact H|reflexivity]]); [|reflexivity|reflexivity].
    destruct H as [H F]. destruct s as [|d s]; [congruence|]. cbn [app]. unfold sign. inversion F; subst.
    destruct (N.eqb_spec d 45); [lia|]. destruct (N.eqb_spec d 43); [lia|]. reflexivity. }
  destruct S as (ds & S & [Hne F] & ->). rewrite S. rewrite (digits_run ds F 0 0 r Hr).
  destruct ds as [|d ds]; [congruence|]. cbn [length Nat.add]. reflexivity.
Qed.
Lemma extract_end k ws : spaces ws -> extract k ws = Fail true.
Proof. intros H. unfold extract. now rewrite skip_spaces_all. Qed.
Lemma extract_sign k ws c r : spaces ws -> (c = 45 \/ c = 43)%N -> stops r -> extract k (ws ++ c :: r) = Fail (at_end r).
Proof.
  intros Hw Hc Hr. unfold extract. rewrite skip_spaces by exact Hw.
  rewrite skip_cons by (destruct Hc; subst; reflexivity).
  assert (S : sign (c :: r) = ((c =? 45)%N, r)) by (destruct Hc; subst; reflexivity). rewrite S.
  pose proof (digits_run [] (Forall_nil _) 0 0%N r Hr) as D. cbn [app length fold_left Nat.add] in D. rewrite D. reflexivity.
Qed.
Lemma extract_junk k ws c r : spaces ws -> is_space c = false -> ~ (48 <= c <= 57)%N -> c <> 45%N -> c <> 43%N ->
  extract k (ws ++ c :: r) = Fail false.
Proof.
  intros Hw Hs Hd H1 H2. unfold extract. rewrite skip_spaces by exact Hw. rewrite skip_cons by exact Hs.
  unfold sign. destruct (N.eqb_spec c 45); [congruence|]. destruct (N.eqb_spec c 43); [congruence|].
  cbn [digits]. now rewrite digit10_none.
Qed.

(** ** Values *)
Lemma means_fits k neg m z : means k neg m z <-> fits k neg m = Some z.
Proof.
  unfold means, fits, signed_value. set (y := (if neg then - Z.of_N m else Z.of_N m)%Z). destruct k as [b|b|]; cbn [in_kind].
  - destruct ((- 2 ^ (Z.of_nat b - 1) <=? y) && (y <? 2 ^ (Z.of_nat b - 1)))%Z eqn:E.
    + apply andb_true_iff in E. destruct E as [E1 E2]. apply Z.leb_le in E1. apply Z.ltb_lt in E2. split.
      * intros [-> _]. reflexivity.
      * intros [= <-]. auto.
    + split; [|discriminate]. intros [-> [H1 H2]]. apply Z.leb_le in H1. apply Z.ltb_lt in H2. rewrite H1, H2 in E. discriminate.
  - destruct (Z.ltb_spec (Z.of_N m) (2 ^ Z.of_nat b)) as [E|E].
    + split; [now intros [_ ->]|]. intros [= <-]. auto.
    + split; [intros [H _]; exfalso; lia|discriminate].
  - destruct ((y =? 0) || (y =? 1))%Z eqn:E.
    + split; [now intros [-> _]|]. intros [= <-]. split; [reflexivity|]. apply orb_true_iff in E. destruct E as [E|E]; apply Z.eqb_eq in E; auto.
    + split; [|discriminate]. apply orb_false_iff in E. destruct E as [E1 E2]. apply Z.eqb_neq in E1, E2. intros [-> [H|H]]; congruence.
Qed.

Lemma stops_space c r : is_space c = true -> stops (c :: r).
Proof. intros H c' r' [= <- <-]. unfold is_space in H. lia. Qed.
Lemma stops_nil : stops [].
Proof. discriminate. Qed.
Lemma spaces_app a b : spaces a -> spaces b -> spaces (a ++ b).
Proof. unfold spaces. intros. now apply Forall_app. Qed.

(** Everything up to a place where extraction fails *)
Lemma scan_all_more k f1 f2 s : length s < f1 -> length s < f2 -> scan_all f1 k s = scan_all f2 k s.
Proof.
  assert (L : forall s z r, extract k s = Got z r -> length r < length s).
  { clear. intros s z r. unfold extract.
    assert (W : forall s, length (skip_ws s) <= length s). { induction s0 as [|c s0 IH]; [reflexivity|]. cbn [skip_ws]. destruct (is_space c); cbn [length]; lia. }
    assert (D : forall s n a n' a' r, digits 10 n a s = (n', a', r) -> n' + length r = n + length s /\ n <= n').
    { induction s0 as [|c s0 IH]; intros n a n' a' r0; cbn [digits]; [intros [= <- <- <-]; cbn [length]; lia|].
      destruct (digit 10 c); [|intros [= <- <- <-]; cbn [length]; lia]. intros E. apply IH in E. cbn [length]. lia. }
    assert (G : forall s, length (snd (sign s)) <= length s).
    { intros [|c s0]; [reflexivity|]. unfold sign. destruct (c =? 45)%N; [cbn [snd length]; lia|]. destruct (c =? 43)%N; cbn [snd length]; lia. }
    specialize (W s). destruct (skip_ws s) as [|c t] eqn:E; [discriminate|]. specialize (G (c :: t)). destruct (sign (c :: t)) as [neg s2]. cbn [snd] in G.
    destruct (digits 10 0 0 s2) as [[n m] r0] eqn:ED. apply D in ED. destruct n; [discriminate|]. destruct (fits k neg m); [|discriminate].
    intros [= <- <-]. lia. }
  revert f2 s. induction f1 as [|f1 IH]; intros f2 s H1 H2; [lia|]. destruct f2 as [|f2]; [lia|]. cbn [scan_all].
  destruct (extract k s) as [z r|e] eqn:E; [|reflexivity]. apply L in E. rewrite (IH f2 r) by lia. reflexivity.
Qed.
Lemma scan_all_got k s z r : extract k s = Got z r -> length r < length s ->
  scan_all (fuel_of s) k s = (z :: fst (scan_all (fuel_of r) k r), snd (scan_all (fuel_of r) k r)).
Proof.
  intros E L. unfold fuel_of at 1. cbn [scan_all]. rewrite E. rewrite (scan_all_more k (length s) (fuel_of r) r) by (unfold fuel_of; lia).
  now destruct (scan_all (fuel_of r) k r).
Qed.
Lemma scan_all_fail k s e : extract k s = Fail e -> scan_all (fuel_of s) k s = ([], e).
Proof. intros E. unfold fuel_of. cbn [scan_all]. now rewrite E. Qed.

(** Text followed by something *)
Lemma spelled_scan k s zs : spelled k s zs -> forall ws g e, spaces ws -> (ws <> [] \/ g = []) -> extract k (ws ++ g) = Fail e ->
  (forall w, spaces w -> extract k (w ++ ws ++ g) = Fail e) ->
  scan_all (fuel_of (s ++ ws ++ g)) k (s ++ ws ++ g) = (zs, e) /\ scan_n (length zs) k (s ++ ws ++ g) = Ret zs.
Proof.
  induction 1 as [w Hw|w tok neg m z c rest zs Hw Ht Hm Hc Hs IH|w tok neg m z Hw Ht Hm]; intros ws g e Hsp Hg He Ha.
  - split; [|reflexivity]. apply scan_all_fail. now apply Ha.
  - destruct (IH ws g e Hsp Hg He Ha) as [I1 I2].
    assert (E : extract k ((w ++ tok ++ c :: rest) ++ ws ++ g) = Got z (c :: rest ++ ws ++ g)).
    { rewrite <- !app_assoc. cbn [app]. rewrite (extract_numeral k w tok neg m (c :: rest ++ ws ++ g) Hw Ht) by now apply stops_space.
      apply means_fits in Hm. now rewrite Hm. }
    assert (L : length (c :: rest ++ ws ++ g) < length ((w ++ tok ++ c :: rest) ++ ws ++ g)).
    { rewrite !app_length. cbn [length]. rewrite !app_length. destruct (numeral_head tok neg m [] Ht) as (x & y & EE & _). rewrite app_nil_r in EE.
      rewrite EE. cbn [length]. lia. }
    assert (X : forall z', extract k (c :: rest ++ ws ++ g) = z' <-> extract k (rest ++ ws ++ g) = z').
    { intros z'. unfold extract. cbn [skip_ws]. rewrite Hc. reflexivity. }
    assert (X' : extract k (c :: rest ++ ws ++ g) = extract k (rest ++ ws ++ g)) by now apply X.
    split.
    + rewrite (scan_all_got k _ z _ E L). 
      assert (Y : scan_all (fuel_of (c :: rest ++ ws ++ g)) k (c :: rest ++ ws ++ g) = scan_all (fuel_of (rest ++ ws ++ g)) k (rest ++ ws ++ g)).
      { rewrite (scan_all_more k (fuel_of (rest ++ ws ++ g)) (S (fuel_of (rest ++ ws ++ g))) (rest ++ ws ++ g)) by (unfold fuel_of; lia).
        unfold fuel_of at 1. cbn [length]. cbn [scan_all]. rewrite X'. reflexivity. }
      rewrite Y, I1. reflexivity.
    + cbn [length scan_n]. rewrite E. cbn [obind].
      assert (Y : scan_n (length zs) k (c :: rest ++ ws ++ g) = scan_n (length zs) k (rest ++ ws ++ g)).
      { destruct (length zs); [reflexivity|]. cbn [scan_n]. now rewrite X'. }
      now rewrite Y, I2.
  - assert (St : stops (ws ++ g)).
    { destruct Hg as [Hg| ->].
      - destruct ws as [|c ws]; [congruence|]. cbn [app]. apply stops_space. now inversion Hsp.
      - destruct ws as [|c ws]; [exact stops_nil|]. cbn [app]. apply stops_space. now inversion Hsp. }
    assert (E : extract k ((w ++ tok) ++ ws ++ g) = Got z (ws ++ g)).
    { rewrite <- !app_assoc. rewrite (extract_numeral k w tok neg m (ws ++ g) Hw Ht St). apply means_fits in Hm. now rewrite Hm. }
    assert (L : length (ws ++ g) < length ((w ++ tok) ++ ws ++ g)).
    { rewrite !app_length. destruct (numeral_head tok neg m [] Ht) as (x & y & EE & _). rewrite app_nil_r in EE. rewrite EE. cbn [length]. lia. }
    split.
    + rewrite (scan_all_got k _ z _ E L). now rewrite (scan_all_fail k _ e He).
    + cbn [length scan_n]. rewrite E. reflexivity.
Qed.
Lemma spelled_read k s zs : spelled k s zs -> read_words k s = Ret zs /\ read_list_words k s = Ret zs.
Proof.
  intros H. destruct (spelled_scan k s zs H [] [] true (Forall_nil _) (or_intror eq_refl) (extract_end k [] (Forall_nil _))) as [A B].
  { intros w Hw. rewrite !app_nil_r. now apply extract_end. }
  rewrite !app_nil_r in A, B. unfold read_words, read_list_words. rewrite A. cbn [negb fst]. auto.
Qed.

(** ** Numbers written by the library *)
Lemma show_nat_digits n : dec_digits (show_nat 10 n) /\ dec_value (show_nat 10 n) = n.
Proof.
  assert (D : Forall (fun c => (48 <= c <= 57)%N) (show_nat 10 n)).
  { unfold show_nat. generalize (S (N.to_nat (N.size n))). intros f.
    assert (G : forall f n acc, Forall (fun c => (48 <= c <= 57)%N) acc -> Forall (fun c => (48 <= c <= 57)%N) (show_loop f 10 n acc)).
    { clear. induction f as [|f IH]; intros n acc H; [exact H|]. cbn [show_loop].
      assert (X : (48 <= digit_char (n mod 10) <= 57)%N).
      { unfold digit_char. assert ((n mod 10 < 10)%N) by (apply N.mod_lt; lia). destruct (N.ltb_spec (n mod 10) 10); lia. }
      destruct (n / 10 =? 0)%N; [|apply IH]; constructor; assumption. }
    apply G. constructor. }
  split; [split; [apply show_nat_nonempty|exact D]|].
  destruct (show_nat_ok 10 n [] ltac:(lia) ltac:(discriminate)) as [_ (k & E)].
  rewrite (digits_run _ D 0 0%N [] stops_nil) in E. now injection E.
Qed.
Lemma show_int_numeral z : exists neg m, numeral (show_int z) neg m /\ signed_value neg m = z.
Proof.
  assert (P : forall n, numeral (show_nat 10 n) false n).
  { intros n. destruct (show_nat_digits n) as [D V]. pose proof (num_plain _ D) as X. now rewrite V in X. }
  destruct z as [|p|p]; cbn [show_int].
  - exists false, 0%N. split; [apply P|reflexivity].
  - exists false, (N.pos p). split; [apply P|reflexivity].
  - exists true, (N.pos p). split; [|reflexivity]. destruct (show_nat_digits (N.pos p)) as [D V]. pose proof (num_minus _ D) as X. now rewrite V in X.
Qed.
Lemma in_kind_means k z : in_kind k z -> forall neg m, signed_value neg m = z -> means k neg m z.
Proof.
  intros H neg m E. unfold means. destruct k as [b|b|]; [auto| |auto]. cbn [in_kind] in H. split.
  - unfold signed_value in E. destruct neg; lia.
  - rewrite E. symmetry. now apply Z.mod_small.
Qed.
Lemma show_words_cons z l : l <> [] -> show_words (z :: l) = show_int z ++ 32%N :: show_words l.
Proof. destruct l as [|y l]; [congruence|]. intros _. reflexivity. Qed.
Lemma show_words_spelled k l : Forall (in_kind k) l -> spelled k (show_words l) l.
Proof.
  induction 1 as [|z l H HF IH]; [constructor; constructor|].
  destruct (show_int_numeral z) as (neg & m & Hn & Hv). pose proof (in_kind_means k z H neg m Hv) as Hm.
  destruct l as [|y l].
  - change (show_words [z]) with (show_int z ++ []). rewrite app_nil_r. apply (sp_last k [] (show_int z) neg m z); [constructor|assumption|assumption].
  - rewrite show_words_cons by discriminate. apply (sp_more k [] (show_int z) neg m z 32%N); [constructor|assumption|assumption|reflexivity|exact IH].
Qed.
Lemma get_num_show k z : in_kind k z -> get_num k (show_num k z) = Ret z.
Proof.
  intros H. assert (G : forall k, in_kind k z -> extract k (show_int z) = Got z []).
  { clear. intros k H. destruct (show_int_numeral z) as (neg & m & Hn & Hv). pose proof (in_kind_means k z H neg m Hv) as Hm.
    pose proof (extract_numeral k [] (show_int z) neg m [] (Forall_nil _) Hn stops_nil) as E. rewrite app_nil_r in E. cbn [app] in E.
    apply means_fits in Hm. rewrite Hm in E. exact E. }
  destruct k as [b|b|]; cbn [get_num show_num].
  - now rewrite (G _ H).
  - now rewrite (G _ H).
  - destruct H as [-> | ->]; reflexivity.
Qed.

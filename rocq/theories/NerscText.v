(** Proofs about the text header of gauge archives. *)
From Coq Require Import String List Arith NArith ZArith Bool Ascii Lia.
From Verif Require Import Base LayoutModel CrcModel CrcSpec CrcProofs SwapProofs IoModel IoSpec IoProofs LatIoModel NerscModel NerscHeader.
Import ListNotations.
Local Open Scope nat_scope.
Local Arguments crc32 : simpl never.

(** ** Numbers as text *)
Definition is_digit (c : N) : Prop := (48 <= c <= 57 \/ 97 <= c <= 102)%N.
Lemma digit_char_ok d : (d < 16)%N -> is_digit (digit_char d).
Proof. intros H. unfold digit_char, is_digit. destruct (N.ltb_spec d 10); lia. Qed.
Lemma digit_of_char base d : (base <= 16)%N -> (d < base)%N -> digit base (digit_char d) = Some d.
Proof.
  intros HB H. unfold digit, digit_char. destruct (N.ltb_spec d 10).
  - replace (48 <=? 48 + d)%N with true by lia. replace (48 + d <=? 57)%N with true by lia. cbn [andb].
    replace (48 + d - 48)%N with d by lia. now destruct (N.ltb_spec d base); [|lia].
  - replace ((48 <=? 87 + d) && (87 + d <=? 57))%N with false by lia.
    replace ((97 <=? 87 + d) && (87 + d <=? 102))%N with true by lia.
    replace (87 + d - 87)%N with d by lia. now destruct (N.ltb_spec d base); [|lia].
Qed.

Lemma show_loop_app base fuel : forall n acc, show_loop fuel base n acc = show_loop fuel base n [] ++ acc.
Proof.
  induction fuel as [|k IH]; intros n acc; [reflexivity|]. cbn [show_loop]. destruct (N.eqb_spec (n / base) 0); [reflexivity|].
  rewrite IH, (IH _ [_]). now rewrite <- app_assoc.
Qed.
Lemma digits_app base s : forall n a r, Forall (fun c => digit base c <> None) s ->
  digits base n a (s ++ r) = let '(n', a', _) := digits base n a s in digits base n' a' r.
Proof.
  induction s as [|c s IH]; intros n a r H; [reflexivity|]. inversion H as [|? ? Hc Hs]; subst. cbn [app digits].
  destruct (digit base c) as [d|]; [|congruence]. now apply IH.
Qed.
Lemma show_loop_ok base fuel : (1 < base <= 16)%N -> forall n k a, (n < base ^ N.of_nat fuel)%N -> 0 < fuel ->
  Forall (fun c => digit base c <> None /\ is_digit c) (show_loop fuel base n []) /\
  exists k', k < k' /\ digits base k a (show_loop fuel base n []) = (k', (a * base ^ N.of_nat (length (show_loop fuel base n [])) + n)%N, []).
Proof.
  intros HB. induction fuel as [|f IH]; intros n k a Hn Hf; [lia|]. cbn [show_loop].
  assert (HD : (n mod base < base)%N) by (apply N.mod_upper_bound; lia).
  assert (DC : digit base (digit_char (n mod base)) = Some (n mod base)%N) by (apply digit_of_char; lia).
  assert (DI : is_digit (digit_char (n mod base))) by (apply digit_char_ok; lia).
  destruct (N.eqb_spec (n / base) 0) as [E|E].
  - split; [constructor; [split; [congruence|exact DI]|constructor]|]. exists (S k). split; [lia|]. cbn [digits]. rewrite DC. f_equal. f_equal.
    cbn [length]. change (N.of_nat 1) with 1%N. rewrite N.pow_1_r.
    pose proof (N.div_mod n base ltac:(lia)) as DM. rewrite E in DM. lia.
  - assert (Hf' : 0 < f).
    { destruct f; [|lia]. exfalso. apply E. apply N.div_small. change (N.of_nat 1) with 1%N in Hn. now rewrite N.pow_1_r in Hn. }
    assert (Hn' : (n / base < base ^ N.of_nat f)%N).
    { apply N.div_lt_upper_bound; [lia|]. rewrite <- N.pow_succ_r'. now replace (N.succ (N.of_nat f)) with (N.of_nat (S f)) by lia. }
    rewrite show_loop_app. destruct (IH (n / base)%N k a Hn' Hf') as [F (k' & Hk & D)]. split.
    + apply Forall_app. split; [exact F|]. constructor; [split; [congruence|exact DI]|constructor].
    + exists (S k'). split; [lia|]. rewrite digits_app by (eapply Forall_impl; [|exact F]; intros c [X _]; exact X). rewrite D.
      cbn [digits]. rewrite DC. f_equal. f_equal. rewrite app_length. cbn [length].
      replace (N.of_nat (length (show_loop f base (n / base) []) + 1)) with (N.succ (N.of_nat (length (show_loop f base (n / base) [])))) by lia.
      rewrite N.pow_succ_r'. pose proof (N.div_mod n base ltac:(lia)) as DM. nia.
Qed.
Lemma size_bound base n : (1 < base)%N -> (n < base ^ N.of_nat (S (N.to_nat (N.size n))))%N.
Proof.
  intros H. pose proof (N.size_gt n) as G. rewrite Nat2N.inj_succ, N2Nat.id. rewrite N.pow_succ_r'.
  assert ((2 ^ N.size n <= base ^ N.size n)%N) by (apply N.pow_le_mono_l; lia). nia.
Qed.
Lemma show_nat_ok base n r : (1 < base <= 16)%N -> (forall c r', r = c :: r' -> digit base c = None) ->
  Forall is_digit (show_nat base n) /\ exists k, digits base 0 0 (show_nat base n ++ r) = (S k, n, r).
Proof.
  intros HB Hr. unfold show_nat. destruct (show_loop_ok base (S (N.to_nat (N.size n))) HB n 0 0 (size_bound base n ltac:(lia)) ltac:(lia)) as [F (k & Hk & D)].
  split; [eapply Forall_impl; [|exact F]; intros c [_ X]; exact X|]. destruct k; [lia|]. exists k.
  rewrite digits_app by (eapply Forall_impl; [|exact F]; intros c [X _]; exact X). rewrite D. rewrite N.mul_0_l, N.add_0_l.
  destruct r as [|c r]; [reflexivity|]. cbn [digits]. now rewrite (Hr c r eq_refl).
Qed.
Lemma show_loop_nonempty base fuel : 0 < fuel -> forall n, show_loop fuel base n [] <> [].
Proof.
  intros H n. destruct fuel; [lia|]. cbn [show_loop]. destruct (_ =? 0)%N; [discriminate|]. rewrite show_loop_app. destruct (show_loop _ _ _ []); discriminate.
Qed.
Lemma show_nat_nonempty base n : show_nat base n <> [].
Proof. apply show_loop_nonempty. lia. Qed.
Lemma show_loop_length base : (1 < base)%N -> forall k fuel n, (n < base ^ N.of_nat k)%N -> 0 < k -> length (show_loop fuel base n []) <= k.
Proof.
  intros HB. induction k as [|k IH]; intros fuel n Hn Hk; [lia|]. destruct fuel; cbn [show_loop length]; [lia|].
  destruct (N.eqb_spec (n / base) 0) as [E|E]; cbn [length]; [lia|]. rewrite show_loop_app, app_length. cbn [length].
  assert (0 < k).
  { destruct k; [|lia]. exfalso. apply E. apply N.div_small. change (N.of_nat 1) with 1%N in Hn. now rewrite N.pow_1_r in Hn. }
  specialize (IH fuel (n / base)%N). enough (length (show_loop fuel base (n / base) []) <= k) by lia. apply IH; [|assumption].
  apply N.div_lt_upper_bound; [lia|]. rewrite <- N.pow_succ_r'. now replace (N.succ (N.of_nat k)) with (N.of_nat (S k)) by lia.
Qed.
Lemma show_nat_length base k n : (1 < base)%N -> (n < base ^ N.of_nat k)%N -> 0 < k -> length (show_nat base n) <= k.
Proof. intros. now apply show_loop_length. Qed.

Lemma digit_not_space c : is_digit c -> is_space c = false.
Proof. unfold is_digit, is_space. lia. Qed.
Lemma skip_digits s : Forall is_digit s -> skip_ws s = s.
Proof. destruct 1 as [|c s H]; [reflexivity|]. cbn [skip_ws]. now rewrite digit_not_space. Qed.
Lemma sign_digits s : Forall is_digit s -> sign s = (false, s).
Proof.
  destruct 1 as [|c s H]; [reflexivity|]. unfold sign, is_digit in *.
  destruct (N.eqb_spec c 45); [lia|]. destruct (N.eqb_spec c 43); [lia|]. reflexivity.
Qed.
Lemma scan_hex_show n : (n < 2 ^ 64)%N -> scan_hex (skip_ws (show_nat 16 n)) = Val (Some n).
Proof.
  intros H. destruct (show_nat_ok 16 n [] ltac:(lia) ltac:(discriminate)) as [F (k & D)]. rewrite app_nil_r in D.
  unfold scan_hex. rewrite !skip_digits by (rewrite ?skip_digits; exact F). rewrite sign_digits by exact F.
  replace (match show_nat 16 n with
    | [] => show_nat 16 n
    | [z] => show_nat 16 n
    | z :: x :: r => if ((z =? 48) && ((x =? 120) || (x =? 88)))%N then r else show_nat 16 n
    end) with (show_nat 16 n).
  - rewrite D. replace (n <? 2 ^ 64)%N with true; [reflexivity|]. symmetry. now apply N.ltb_lt.
  - destruct F as [|z l Hz [|x l' Hx F']]; [reflexivity|reflexivity|].
    replace ((x =? 120) || (x =? 88))%N with false by (unfold is_digit in Hx; lia). now rewrite andb_false_r.
Qed.
Definition int_range (z : Z) : Prop := (- 2 ^ 31 <= z < 2 ^ 31)%Z.
Lemma show_int_chars z : Forall (fun c => is_digit c \/ c = 45%N) (show_int z).
Proof.
  assert (G : forall n, Forall (fun c => is_digit c \/ c = 45%N) (show_nat 10 n)).
  { intros n. destruct (show_nat_ok 10 n [] ltac:(lia) ltac:(discriminate)) as [F _]. eapply Forall_impl; [|exact F]. tauto. }
  destruct z; cbn [show_int]; auto.
Qed.
Lemma scan_dec_show z r : int_range z -> (forall c r', r = c :: r' -> digit 10 c = None) ->
  scan_dec (skip_ws (show_int z ++ r)) = Val (Some (z, r)).
Proof.
  intros Hz Hr.
  assert (R : ((- 2 ^ 31 <=? z) && (z <? 2 ^ 31))%Z = true).
  { unfold int_range in Hz. apply andb_true_intro. split; [apply Z.leb_le|apply Z.ltb_lt]; tauto. }
  assert (G : forall n, exists c l, show_nat 10 n = c :: l /\ is_digit c).
  { intros n. destruct (show_nat_ok 10 n [] ltac:(lia) ltac:(discriminate)) as [F _]. pose proof (show_nat_nonempty 10 n).
    destruct F as [|c l Hc F]; [congruence|eauto]. }
  assert (P : forall n, skip_ws (show_nat 10 n ++ r) = show_nat 10 n ++ r /\ sign (show_nat 10 n ++ r) = (false, show_nat 10 n ++ r)).
  { intros n. destruct (G n) as (c & l & -> & Hc). cbn [app skip_ws sign]. rewrite digit_not_space by exact Hc. split; [reflexivity|].
    unfold is_digit in Hc. destruct (N.eqb_spec c 45); [lia|]. destruct (N.eqb_spec c 43); [lia|]. reflexivity. }
  assert (D : forall n, exists k, digits 10 0 0 (show_nat 10 n ++ r) = (S k, n, r)).
  { intros n. now destruct (show_nat_ok 10 n r ltac:(lia) Hr) as [_ D]. }
  assert (Pos : forall n, z = Z.of_N n -> scan_dec (skip_ws (show_nat 10 n ++ r)) = Val (Some (z, r))).
  { intros n En. destruct (P n) as [P1 P2]. unfold scan_dec. rewrite !P1, P2. destruct (D n) as [k ->]. rewrite <- En, R. reflexivity. }
  destruct z as [|p|p].
  - apply (Pos 0%N). reflexivity.
  - apply (Pos (Npos p)). reflexivity.
  - cbn [show_int app]. unfold scan_dec.
    assert (S1 : forall l, skip_ws (45%N :: l) = 45%N :: l) by reflexivity.
    assert (S2 : forall l, sign (45%N :: l) = (true, l)) by reflexivity.
    rewrite !S1, S2. destruct (D (Npos p)) as [k ->].
    change (- Z.of_N (Npos p))%Z with (Zneg p). rewrite R. reflexivity.
Qed.
Lemma show_int_length z : int_range z -> length (show_int z) <= 11.
Proof.
  intros [H1 H2].
  assert (G : forall n, (n < 10 ^ 10)%N -> length (show_nat 10 n) <= 10) by (intros; apply show_nat_length; [lia|assumption|lia]).
  destruct z as [|p|p]; cbn [show_int length].
  - cbn. lia.
  - assert ((Npos p < 10 ^ 10)%N) by (change (10 ^ 10)%N with 10000000000%N; lia). specialize (G _ H). cbn [Z.to_N]. lia.
  - assert ((Npos p < 10 ^ 10)%N) by (change (10 ^ 10)%N with 10000000000%N; lia). specialize (G _ H). lia.
Qed.

(** ** Lines *)
Definition unlines (ls : list (list N)) : list N := concat (map (fun l => l ++ [10%N]) ls).
Lemma unlines_cons l ls : unlines (l :: ls) = (l ++ [10%N]) ++ unlines ls.
Proof. reflexivity. Qed.
Lemma unlines_app a b : unlines (a ++ b) = unlines a ++ unlines b.
Proof. unfold unlines. now rewrite map_app, concat_app. Qed.
Definition plain_text (l : list N) : Prop := bytes_ok l /\ ~ In 10%N l /\ ~ In 0%N l.
Lemma same_spec a b : same a b = true <-> a = b.
Proof. unfold same. destruct (list_eq_dec N.eq_dec a b); split; congruence. Qed.
Lemma same_neq a b : a <> b -> same a b = false.
Proof. unfold same. destruct (list_eq_dec N.eq_dec a b); congruence. Qed.

Lemma getline_long room l r : ~ In 10%N l -> room < length l -> getline_loop room (l ++ r) = (firstn room l, room, true).
Proof.
  revert room. induction l as [|c l IH]; intros room HN HL; [cbn in HL; lia|]. cbn [app].
  assert (E : (c =? 10)%N = false) by (apply N.eqb_neq; intros ->; apply HN; now left).
  destruct room as [|room]; cbn [getline_loop]; rewrite E; [reflexivity|].
  rewrite IH; [reflexivity|intros X; apply HN; now right|cbn in HL; lia].
Qed.
Lemma c_string_id s : ~ In 0%N s -> c_string s = s.
Proof. induction s as [|c s IH]; intros H; [reflexivity|]. cbn [c_string]. destruct (N.eqb_spec c 0) as [->|]; [exfalso; apply H; now left|]. rewrite IH; auto. intros X. apply H. now right. Qed.

Lemma read_long l r st : plain_text l -> 128 <= length l -> ready st ((l ++ [10%N]) ++ r) ->
  exists st', read_string 128 st = Val (firstn 127 l, st') /\ s_fail st' = true.
Proof.
  intros (_ & H10 & H0) HL (F & C & pre & D & L). unfold read_string. rewrite F, D.
  rewrite skipn_app, skipn_all2 by lia. replace (s_get st - length pre) with 0 by lia. cbn [app skipn]. rewrite <- app_assoc.
  rewrite getline_long by (auto; lia). rewrite c_string_id by (intros X; apply H0; rewrite <- (firstn_skipn 127 l); apply in_or_app; now left).
  eexists. split; [reflexivity|]. unfold add_crc, with_crc, set_fail, at_get. destruct st. reflexivity.
Qed.
Lemma read_failed st : s_fail st = true -> exists st', read_string 128 st = Val ([], st') /\ s_fail st' = true.
Proof. intros F. unfold read_string. rewrite F. eexists. split; [reflexivity|]. unfold add_crc, with_crc. destruct st. exact F. Qed.

Section Lines.
  Context {F : Type} (strtod : list N -> option F).
  Notation process := (process_line strtod).
  Notation END := (txt "END_HEADER").

  Fixpoint run (ls : list (list N)) (hc : @header F * nat) : res (header * nat) :=
    match ls with [] => Val hc | l :: r => bind (process l hc) (run r) end.
  Lemma run_app a b hc : run (a ++ b) hc = bind (run a hc) (run b).
  Proof. revert hc. induction a as [|l a IH]; intros hc; [reflexivity|]. cbn [app run]. destruct (process l hc); cbn [bind]; auto. Qed.

  Lemma read_lines_ok : forall ls fuel hc hc' rest st, length ls < fuel ->
    Forall (fun l => plain_text l /\ length l < 128 /\ l <> END) ls -> run ls hc = Val hc' ->
    ready st ((unlines ls ++ END ++ [10%N]) ++ rest) ->
    read_lines strtod fuel hc st = Val (hc', consume (unlines ls ++ END ++ [10%N]) st).
  Proof.
    induction ls as [|l ls IH]; intros fuel hc hc' rest st HF HP HR R.
    - cbn [run] in HR. injection HR as <-. destruct fuel as [|k]; [cbn in HF; lia|]. cbn [read_lines].
      change (unlines [] ++ END ++ [10%N]) with (END ++ [10%N]) in *.
      rewrite (read_string_ok 128 END rest st).
      + cbn [bind]. reflexivity.
      + apply Forall_forall. intros c Hc. revert c Hc. apply Forall_forall. repeat constructor.
      + split; [|split]; [cbn; intuition discriminate|cbn; intuition discriminate|cbn; lia].
      + exact R.
    - inversion HP as [|? ? (P1 & P2 & P3) HP']; subst. destruct fuel as [|k]; [cbn in HF; lia|]. cbn [read_lines run] in *.
      destruct (process l hc) as [hc1| |] eqn:EP; try discriminate. cbn [bind] in HR.
      rewrite unlines_cons in R |- *. set (ln := l ++ [10%N]) in *. set (tail := END ++ [10%N]) in *.
      rewrite <- (app_assoc ln) in R |- *. rewrite <- (app_assoc ln) in R.
      destruct P1 as (B & N10 & N0).
      rewrite (read_string_ok 128 l _ st B (conj N10 (conj N0 P2)) R). cbn [bind].
      rewrite same_neq by exact P3. rewrite EP. cbn [bind].
      rewrite (IH k hc1 hc' rest); [now rewrite consume_app|cbn in HF; lia|exact HP'|exact HR|now apply consume_ready].
  Qed.

  (** A line that is too long stops everything. *)
  Variable P : @header F * nat -> Prop.
  Definition good_line (l : list N) : Prop :=
    plain_text l /\ firstn 127 l <> END /\ forall hc, P hc -> exists hc', process (firstn 127 l) hc = Val hc' /\ P hc'.
  Lemma read_lines_long : forall ls fuel hc rest st, length ls < fuel -> P hc -> Forall good_line ls ->
    Exists (fun l => 128 <= length l) ls -> ready st (unlines ls ++ rest) -> read_lines strtod fuel hc st = Abort.
  Proof.
    induction ls as [|l ls IH]; intros fuel hc rest st HF HP HG HE R; [inversion HE|].
    inversion HG as [|? ? (P1 & P2 & P3) HG']; subst. destruct fuel as [|k]; [cbn in HF; lia|]. cbn [read_lines].
    rewrite unlines_cons, <- app_assoc in R. destruct (P3 hc HP) as (hc1 & EP & HP1).
    destruct (Nat.le_gt_cases 128 (length l)) as [HL|HL].
    - destruct (read_long l _ st P1 HL R) as (st' & -> & F'). cbn [bind]. rewrite same_neq by exact P2. rewrite EP. cbn [bind].
      destruct k as [|k]; [destruct ls; cbn in HF; [|lia]; lia|]. cbn [read_lines].
      destruct (read_failed st' F') as (st2 & -> & _). reflexivity.
    - rewrite firstn_all2 in * by lia. destruct P1 as (B & N10 & N0).
      rewrite (read_string_ok 128 l _ st B (conj N10 (conj N0 HL)) R). cbn [bind]. rewrite same_neq by exact P2. rewrite EP. cbn [bind].
      apply (IH k hc1 rest); [cbn in HF; lia|exact HP1|exact HG'| |now apply consume_ready].
      inversion HE; subst; [lia|assumption].
  Qed.
End Lines.

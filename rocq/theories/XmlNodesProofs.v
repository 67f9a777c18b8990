(** Proofs about XML input on several nodes. *)
From Coq Require Import String List Arith NArith ZArith Znumtheory Bool Ascii Lia.
From Verif Require Import Base NerscHeader NerscText XmlModel XmlSpec XmlProofs XmlRound XmlOne XmlNodesModel.
Import ListNotations.
Local Open Scope nat_scope.
Local Notation length := List.length.

(** ** Sequencing *)
Definition res0 {A} (x : xml) (p : prog A) : out A := fst (fst (run0 x p)).
Definition failed {A} (x : xml) (p : prog A) : bool := snd (run0 x p).
Lemma run0_bind {A B} x (p : prog A) (g : A -> prog B) :
  run0 x (pbind p g) =
  match run0 x p with
  | (Ret a, ms, b) => let '(r, ms2, b2) := run0 x (g a) in (r, ms ++ ms2, b || b2)
  | (Raise, ms, b) => (Raise, ms, b)
  | (Halt, ms, b) => (Halt, ms, b)
  | (Wild, ms, b) => (Wild, ms, b)
  end.
Proof.
  induction p as [a| | |q k IHk f IHf]; cbn [pbind run0]; try reflexivity.
  - destruct (run0 x (g a)) as [[r ms] b]. reflexivity.
  - destruct (answer x q) as [a|].
    + rewrite IHk. destruct (run0 x (k a)) as [[[a'| | |] ms] b]; try reflexivity.
      destruct (run0 x (g a')) as [[r ms2] b2]. now rewrite app_assoc.
    + rewrite IHf. destruct (run0 x f) as [[[a'| | |] ms] b]; try reflexivity.
      destruct (run0 x (g a')) as [[r ms2] b2]. reflexivity.
Qed.
Lemma res0_bind {A B} x (p : prog A) (g : A -> prog B) : res0 x (pbind p g) = obind (res0 x p) (fun a => res0 x (g a)).
Proof.
  unfold res0. rewrite run0_bind. destruct (run0 x p) as [[[a| | |] ms] b]; try reflexivity. cbn [fst obind].
  destruct (run0 x (g a)) as [[r ms2] b2]. reflexivity.
Qed.
Lemma run1_bind {A B} (p : prog A) (g : A -> prog B) : forall ms,
  run1 (pbind p g) ms =
  match run1 p ms with
  | Ends (Ret a) r => run1 (g a) r
  | Ends Raise r => Ends Raise r
  | Ends Halt r => Ends Halt r
  | Ends Wild r => Ends Wild r
  | Waits => Waits
  | Garbled => Garbled
  end.
Proof.
  induction p as [a| | |q k IHk f IHf]; intros ms; cbn [pbind run1]; try reflexivity.
  destruct (receive q ms) as [a r| |]; [apply IHk|reflexivity|reflexivity].
Qed.
Lemma obind_ext {A B} (r : out A) (f g : A -> out B) : (forall a, f a = g a) -> obind r f = obind r g.
Proof. intros H. destruct r; cbn [obind]; auto. Qed.
Lemma res0_map {A B} x (f : A -> prog B) l : res0 x (pmap f l) = omap (fun a => res0 x (f a)) l.
Proof.
  induction l as [|a l IH]; [reflexivity|]. cbn [pmap omap]. rewrite res0_bind. apply obind_ext. intros b. rewrite res0_bind, IH.
  apply obind_ext. reflexivity.
Qed.
Lemma res0_fold {A S} x (f : A -> S -> prog S) l : forall s, res0 x (pfold f l s) = ofold (fun a s => res0 x (f a s)) l s.
Proof.
  induction l as [|a l IH]; intros s; [reflexivity|]. cbn [pfold ofold]. rewrite res0_bind. apply obind_ext. exact IH.
Qed.
Lemma res0_local {A} x (r : out A) : r <> Halt -> res0 x (local r) = r.
Proof. destruct r; intros H; try reflexivity. congruence. Qed.
Lemma ofold_ext {A S} (f g : A -> S -> out S) l : (forall a s, f a s = g a s) -> forall s, ofold f l s = ofold g l s.
Proof. intros H. induction l as [|a l IH]; intros s; [reflexivity|]. cbn [ofold]. rewrite H. apply obind_ext. exact IH. Qed.
Lemma omap_ext {A B} (f g : A -> out B) l : (forall a, f a = g a) -> omap f l = omap g l.
Proof. intros H. induction l as [|a l IH]; [reflexivity|]. cbn [omap]. rewrite H. apply obind_ext. intros b. now rewrite IH. Qed.

(** ** A reader for a part of the document sees what is found under its path *)
Lemma read_same t : forall x y p q, (forall r, select x (p ++ r) = select y (q ++ r)) -> read t x p = read t y q.
Proof.
  assert (N : forall x y p q, (forall r, select x (p ++ r) = select y (q ++ r)) -> node_at x p = node_at y q).
  { intros x y p q H. unfold node_at. specialize (H []). rewrite !app_nil_r in H. now rewrite H. }
  induction t as [| |k|c t IH|tk IHk tv IHv|ta IHa tb IHb|t IH|]; intros x y p q H; cbn [read]; rewrite ?(N x y p q H); try reflexivity.
  - rewrite (IH x y (p ++ down "re") (q ++ down "re")) by (intros r; rewrite <- !app_assoc; apply H).
    now rewrite (IH x y (p ++ down "im") (q ++ down "im")) by (intros r; rewrite <- !app_assoc; apply H).
  - now rewrite (N x y (p ++ down "Seed") (q ++ down "Seed")) by (intros r; rewrite <- !app_assoc; apply H).
Qed.
Lemma node_select x p n : node_at x p = Ret n -> select x p = [n].
Proof. unfold node_at. destruct (select x p) as [|a [|b l]]; intros H; inversion H; reflexivity. Qed.
Lemma read_below t x p n q : node_at x p = Ret n -> read t x (p ++ q) = read t n q.
Proof. intros H. apply read_same. intros r. rewrite <- app_assoc. now rewrite (select_one _ _ _ _ (node_select _ _ _ H)). Qed.
Lemma node_below x p n q : node_at x p = Ret n -> node_at x (p ++ q) = node_at n q.
Proof. intros H. unfold node_at at 1. now rewrite (select_one _ _ _ _ (node_select _ _ _ H)). Qed.
Lemma count_below x p n q : node_at x p = Ret n -> count x (p ++ q) = count n q.
Proof. intros H. unfold count. now rewrite (select_one _ _ _ _ (node_select _ _ _ H)). Qed.

(** ** What the primary node does *)
Lemma node_cases x p : (exists n, node_at x p = Ret n) \/ node_at x p = Raise.
Proof. unfold node_at. destruct (select x p) as [|a [|b l]]; eauto. Qed.
Lemma get_num_cases k s : (exists z, get_num k s = Ret z) \/ get_num k s = Raise.
Proof.
  destruct (get_num k s) as [z| | |] eqn:E; eauto; exfalso; revert E; destruct k; cbn [get_num];
    repeat match goal with |- context [match ?x with _ => _ end] => destruct x end; discriminate.
Qed.
Lemma res0_open x p : res0 x (ask_open p) = obind (node_at x p) (fun _ => Ret tt).
Proof. unfold res0, ask_open. cbn [run0 answer]. destruct (node_cases x p) as [[n ->]| ->]; reflexivity. Qed.
Lemma res0_count x p : res0 x (ask_count p) = Ret (count x p).
Proof. reflexivity. Qed.
Lemma res0_str x p : res0 x (ask_str p) = obind (node_at x p) (fun n => Ret (xtext n)).
Proof. unfold res0, ask_str. cbn [run0 answer]. destruct (node_cases x p) as [[n ->]| ->]; reflexivity. Qed.
Lemma res0_num x k p : res0 x (ask_num k p) = obind (node_at x p) (fun n => get_num k (xtext n)).
Proof.
  unfold res0, ask_num. cbn [run0 answer]. destruct (node_cases x p) as [[n ->]| ->]; [|reflexivity]. cbn [obind].
  destruct (get_num_cases k (xtext n)) as [[z ->]| ->]; reflexivity.
Qed.
Lemma obind_assoc {A B C} (r : out A) (f : A -> out B) (g : B -> out C) : obind (obind r f) g = obind r (fun a => obind (f a) g).
Proof. destruct r; reflexivity. Qed.
Lemma res0_elems x rd rd' p : (forall q, res0 x (rd q) = rd' x q) -> (forall n q, node_at x p = Ret n -> rd' x (p ++ q) = rd' n q) ->
  res0 x (elems_prog rd p) = obind (node_at x p) (read_elems rd').
Proof.
  intros H B. unfold elems_prog. rewrite res0_bind, res0_open, obind_assoc. destruct (node_cases x p) as [[n E]|E]; rewrite E; [|reflexivity]. cbn [obind].
  rewrite res0_bind, res0_count. cbn [obind]. rewrite res0_map, (count_below _ _ _ _ E). unfold read_elems. apply omap_ext. intros i. rewrite H. now apply B.
Qed.
Lemma res0_list x rd p : res0 x (list_prog rd p) = obind (node_at x p) (fun _ => Ret []).
Proof.
  unfold list_prog. rewrite res0_bind, res0_open, obind_assoc. destruct (node_cases x p) as [[n E]|E]; rewrite E; reflexivity.
Qed.
Lemma res0_entries x rk rv rk' rv' ins p m :
  (forall q, res0 x (rk q) = rk' x q) -> (forall q, res0 x (rv q) = rv' x q) ->
  (forall p n q, node_at x p = Ret n -> rk' x (p ++ q) = rk' n q) -> (forall p n q, node_at x p = Ret n -> rv' x (p ++ q) = rv' n q) ->
  res0 x (entries_prog rk rv ins p m) = obind (node_at x p) (fun top => read_entries rk' rv' ins top m).
Proof.
  intros HK HV BK BV. unfold entries_prog. rewrite res0_bind, res0_open, obind_assoc. destruct (node_cases x p) as [[n E]|E]; rewrite E; [|reflexivity]. cbn [obind].
  rewrite res0_bind, res0_count. cbn [obind]. rewrite res0_fold, (count_below _ _ _ _ E). unfold read_entries. apply ofold_ext. intros i s.
  rewrite res0_bind, res0_open, obind_assoc. cbn [obind].
  destruct (node_cases x (p ++ nth_path i)) as [[y Ey]|Ey]; pose proof Ey as Ey'; rewrite (node_below _ _ _ _ E) in Ey'; rewrite Ey, Ey'; [|reflexivity]. cbn [obind].
  rewrite res0_bind, HK, (BK _ _ _ Ey). apply obind_ext. intros k. rewrite res0_bind, HV, (BV _ _ _ Ey). apply obind_ext. reflexivity.
Qed.
Lemma scan_n_halt k : forall n s, scan_n n k s <> Halt.
Proof.
  induction n as [|n IH]; intros s; cbn [scan_n]; [discriminate|]. destruct (extract k s) as [z r|]; [|discriminate].
  specialize (IH r). destruct (scan_n n k r); cbn [obind]; congruence.
Qed.
Lemma read_words_halt k s : read_words k s <> Halt.
Proof. unfold read_words. destruct (scan_all _ k s) as [l e]. destruct (negb e); [discriminate|apply scan_n_halt]. Qed.
Lemma res0_read t : forall x p, res0 x (read_prog t p) = read t x p.
Proof.
  induction t as [| |k|c t IH|tk IHk tv IHv|ta IHa tb IHb|t IH|]; intros x p.
  - cbn [read_prog read]. rewrite res0_bind, res0_str, obind_assoc. reflexivity.
  - cbn [read_prog read]. rewrite res0_bind, res0_str, obind_assoc. reflexivity.
  - cbn [read_prog read]. rewrite res0_bind, res0_num, obind_assoc. reflexivity.
  - destruct (is_word t) eqn:W.
    + destruct t as [| |k| | | | |]; try discriminate. destruct c; cbn [read_prog read]; rewrite res0_bind, res0_str, obind_assoc; apply obind_ext; intros n; cbn [obind];
        rewrite res0_bind, res0_local by (apply read_words_halt || discriminate); reflexivity.
    + assert (E : read_prog (TSeq c t) p = if match c with StdList => true | _ => false end
        then pbind (list_prog (read_prog t) p) (fun l => PRet (VSeq l)) else pbind (elems_prog (read_prog t) p) (fun l => PRet (VSeq l))).
      { destruct t, c; try discriminate; reflexivity. }
      assert (R : read (TSeq c t) x p = if match c with StdList => true | _ => false end
        then obind (node_at x p) (fun top => obind (read_list (read t) top) (fun l => Ret (VSeq l)))
        else obind (node_at x p) (fun top => obind (read_elems (read t) top) (fun l => Ret (VSeq l)))).
      { destruct t, c; try discriminate; reflexivity. }
      rewrite E, R. destruct (match c with StdList => true | _ => false end).
      * rewrite res0_bind, res0_list, obind_assoc. apply obind_ext. reflexivity.
      * rewrite res0_bind, (res0_elems x (read_prog t) (read t) p), obind_assoc; [reflexivity|intros q; apply IH|].
        intros n q. apply read_below.
  - cbn [read_prog read]. rewrite res0_bind, (res0_entries x _ _ (read tk) (read tv)), obind_assoc; [reflexivity|intros; apply IHk|intros; apply IHv|..];
      intros; now apply read_below.
  - cbn [read_prog read]. rewrite res0_bind, res0_open, obind_assoc. destruct (node_cases x p) as [[n E]|E]; rewrite E; [|reflexivity]. cbn [obind].
    rewrite res0_bind, IHa, (read_below _ _ _ _ _ E). apply obind_ext. intros a. rewrite res0_bind, IHb, (read_below _ _ _ _ _ E). reflexivity.
  - cbn [read_prog read]. rewrite res0_bind, IH. apply obind_ext. intros a. rewrite res0_bind, IH. reflexivity.
  - cbn [read_prog read]. set (rd := fun x p => obind (node_at x p) (fun n => obind (get_num (Signed 32) (xtext n)) (fun z => Ret (VNum z)))).
    rewrite res0_bind, (res0_elems x _ rd (p ++ down "Seed")), obind_assoc.
    + apply obind_ext. intros n. apply obind_ext. intros ff. rewrite res0_bind, res0_local; [reflexivity|]. clear.
      generalize (seq 0 4). intros l. induction l as [|i l IH]; [discriminate|]. cbn [omap]. destruct (nth_error ff i); [|discriminate]. cbn [obind].
      match goal with |- obind ?m _ <> _ => destruct m; cbn [obind]; congruence end.
    + intros q. unfold rd. rewrite res0_bind, res0_num, obind_assoc. reflexivity.
    + intros n q E. unfold rd. now rewrite (node_below _ _ _ _ E).
Qed.

(** ** Programs that do not catch exceptions *)
Inductive strict {A} : prog A -> Prop :=
| st_ret a : strict (PRet a)
| st_throw : strict PThrow
| st_wild : strict PWild
| st_ask q k : (forall a, strict (k a)) -> strict (PAsk q k PThrow).
Lemma strict_bind {A B} (p : prog A) (g : A -> prog B) : strict p -> (forall a, strict (g a)) -> strict (pbind p g).
Proof. intros H G. induction H as [a| | |q k H IH]; cbn [pbind]; [apply G|constructor|constructor|constructor; exact IH]. Qed.
Lemma strict_failed {A} x (p : prog A) : strict p -> failed x p = true -> res0 x p = Raise.
Proof.
  intros H. induction H as [a| | |q k H IH]; unfold failed, res0; cbn [run0 snd fst]; try discriminate.
  destruct (answer x q) as [a|]; [|reflexivity]. specialize (IH a). unfold failed, res0 in IH. destruct (run0 x (k a)) as [[r ms] b]. exact IH.
Qed.
Lemma strict_local {A} (r : out A) : strict (local r).
Proof. destruct r; constructor. Qed.
Lemma strict_map {A B} (f : A -> prog B) l : (forall a, strict (f a)) -> strict (pmap f l).
Proof. intros H. induction l as [|a l IH]; cbn [pmap]; [constructor|]. apply strict_bind; [apply H|]. intros b. apply strict_bind; [exact IH|constructor]. Qed.
Lemma strict_fold {A S} (f : A -> S -> prog S) l : (forall a s, strict (f a s)) -> forall s, strict (pfold f l s).
Proof. intros H. induction l as [|a l IH]; intros s; cbn [pfold]; [constructor|]. apply strict_bind; [apply H|exact IH]. Qed.
Lemma strict_num k p : strict (ask_num k p).
Proof. constructor. intros []; constructor. Qed.
Lemma strict_str p : strict (ask_str p).
Proof. constructor. intros []; constructor. Qed.
Lemma strict_count p : strict (ask_count p).
Proof. constructor. intros []; constructor. Qed.
Lemma strict_open p : strict (ask_open p).
Proof. constructor. intros []; constructor. Qed.
Lemma strict_elems rd p : (forall q, strict (rd q)) -> strict (elems_prog rd p).
Proof.
  intros H. unfold elems_prog. apply strict_bind; [apply strict_open|]. intros _. apply strict_bind; [apply strict_count|].
  intros n. apply strict_map. intros i. apply H.
Qed.
Lemma strict_read t : forall p, strict (read_prog t p).
Proof.
  induction t as [| |k|c t IH|tk IHk tv IHv|ta IHa tb IHb|t IH|]; intros p.
  - apply strict_bind; [apply strict_str|constructor].
  - apply strict_bind; [apply strict_str|constructor].
  - apply strict_bind; [apply strict_num|constructor].
  - destruct (is_word t) eqn:W.
    + destruct t as [| |k| | | | |]; try discriminate. destruct c; cbn [read_prog]; (apply strict_bind; [apply strict_str|]; intros s;
        apply strict_bind; [apply strict_local|constructor]).
    + assert (L : strict (list_prog (read_prog t) p)).
      { unfold list_prog. apply strict_bind; [apply strict_open|]. intros _. apply strict_bind; [apply strict_count|]. intros n. constructor. }
      assert (E : strict (elems_prog (read_prog t) p)) by now apply strict_elems.
      destruct t, c; try discriminate; cbn [read_prog] in *; (apply strict_bind; [exact L || exact E|constructor]).
  - cbn [read_prog]. apply strict_bind; [|constructor]. unfold entries_prog. apply strict_bind; [apply strict_open|]. intros _.
    apply strict_bind; [apply strict_count|]. intros n. apply strict_fold. intros i m. apply strict_bind; [apply strict_open|]. intros _.
    apply strict_bind; [apply IHk|]. intros key. apply strict_bind; [apply IHv|constructor].
  - cbn [read_prog]. apply strict_bind; [apply strict_open|]. intros _. apply strict_bind; [apply IHa|]. intros a. apply strict_bind; [apply IHb|constructor].
  - cbn [read_prog]. apply strict_bind; [apply IH|]. intros a. apply strict_bind; [apply IH|constructor].
  - cbn [read_prog]. apply strict_bind; [apply strict_elems; intros q; apply strict_bind; [apply strict_num|constructor]|]. intros ff.
    apply strict_bind; [apply strict_local|constructor].
Qed.

(** ** Numbers survive the broadcast *)
Lemma le_length w : forall z, length (le w z) = w.
Proof. induction w as [|w IH]; intros z; cbn [le length]; [reflexivity|]. now rewrite IH. Qed.
Lemma of_le_le w : forall z, of_le (le w z) = (z mod 256 ^ Z.of_nat w)%Z.
Proof.
  induction w as [|w IH]; intros z; [cbn [le of_le Z.of_nat]; now rewrite Z.mod_1_r|]. cbn [le of_le]. rewrite IH.
  rewrite Z2N.id by (apply Z.mod_pos_bound; lia). rewrite Nat2Z.inj_succ, Z.pow_succ_r by lia.
  rewrite (Z.rem_mul_r z 256 (256 ^ Z.of_nat w)); [reflexivity|lia|]. apply Z.pow_pos_nonneg; lia.
Qed.
Lemma of_le_bits w b z : b <= 8 * w -> (of_le (le w z) mod 2 ^ Z.of_nat b = z mod 2 ^ Z.of_nat b)%Z.
Proof.
  intros H. rewrite of_le_le. replace (256 ^ Z.of_nat w)%Z with (2 ^ Z.of_nat b * 2 ^ Z.of_nat (8 * w - b))%Z.
  - rewrite <- Zmod_div_mod; [reflexivity|..].
    + apply Z.pow_pos_nonneg; lia.
    + apply Z.mul_pos_pos; apply Z.pow_pos_nonneg; lia.
    + apply Z.divide_factor_l.
  - rewrite <- Z.pow_add_r by lia. change 256%Z with (2 ^ 8)%Z. rewrite <- Z.pow_mul_r by lia. f_equal. lia.
Qed.
Lemma number_le k z : in_kind k z -> number k (le (width k) z) = Some z.
Proof.
  assert (W : forall b, b <= 8 * ((b + 7) / 8)).
  { intros b. pose proof (Nat.div_mod (b + 7) 8 ltac:(lia)). pose proof (Nat.mod_upper_bound (b + 7) 8 ltac:(lia)). lia. }
  destruct k as [b|b|]; cbn [in_kind number width]; intros H.
  - rewrite of_le_bits by apply W. f_equal. destruct b as [|b]; [cbn in H; lia|].
    replace (Z.of_nat (S b) - 1)%Z with (Z.of_nat b) in * by lia.
    rewrite Nat2Z.inj_succ, Z.pow_succ_r by lia. set (P := (2 ^ Z.of_nat b)%Z) in *. assert (0 < P)%Z by (apply Z.pow_pos_nonneg; lia).
    destruct (Z.ltb_spec z 0) as [N|N].
    + replace (z mod (2 * P))%Z with (z + 2 * P)%Z.
      * destruct (Z.ltb_spec (z + 2 * P) P); lia.
      * apply (Z.mod_unique z (2 * P) (-1)); lia.
    + rewrite Z.mod_small by lia. destruct (Z.ltb_spec z P); lia.
  - rewrite of_le_bits by apply W. f_equal. apply Z.mod_small. exact H.
  - destruct H as [-> | ->]; reflexivity.
Qed.
Lemma means_in_kind k neg m z : means k neg m z -> in_kind k z.
Proof.
  destruct k as [b|b|]; cbn [means]; [now intros [_ H]| |now intros [_ H]]. intros [H ->]. cbn [in_kind]. apply Z.mod_pos_bound.
  apply Z.pow_pos_nonneg; lia.
Qed.
Lemma get_num_in_kind k s z : get_num k s = Ret z -> in_kind k z.
Proof.
  intros H. apply get_num_one in H. destruct H as (a & tok & b & _ & _ & _ & H). destruct k as [n|n|].
  - destruct H as (neg & m & _ & M). exact (means_in_kind _ _ _ _ M).
  - destruct H as (neg & m & _ & M). exact (means_in_kind _ _ _ _ M).
  - cbn [in_kind]. destruct H as [[_ ->]|[_ ->]]; auto.
Qed.
Lemma get_number_le k z r : in_kind k z -> get_number k (le (width k) z :: r) = Now z r.
Proof. intros H. unfold get_number. rewrite le_length, Nat.eqb_refl, (number_le k z H). reflexivity. Qed.

(** ** The nodes in step *)
(** What is selected is part of the document. *)
Lemma sum_flat {A B} (f : A -> list B) (g : A -> nat) l : (forall a, In a l -> length (f a) <= g a) -> length (flat_map f l) <= list_sum (map g l).
Proof.
  induction l as [|a l IH]; intros H; [apply Nat.le_refl|]. cbn [flat_map map]. rewrite app_length. change (list_sum (g a :: map g l)) with (g a + list_sum (map g l)).
  pose proof (H a (or_introl eq_refl)). specialize (IH (fun b Hb => H b (or_intror Hb))). lia.
Qed.
Lemma sum_filter {A} (f : A -> bool) (g : A -> nat) l : list_sum (map g (filter f l)) <= list_sum (map g l).
Proof.
  induction l as [|a l IH]; [apply Nat.le_refl|]. cbn [filter map]. change (list_sum (g a :: map g l)) with (g a + list_sum (map g l)).
  destruct (f a); cbn [map]; [|lia]. change (list_sum (g a :: map g (filter f l))) with (g a + list_sum (map g (filter f l))). lia.
Qed.
Lemma sum_in {A} (g : A -> nat) l a : In a l -> g a <= list_sum (map g l).
Proof.
  induction l as [|b l IH]; intros H; [contradiction|]. cbn [map]. change (list_sum (g b :: map g l)) with (g b + list_sum (map g l)).
  destruct H as [->|H]; [lia|]. specialize (IH H). lia.
Qed.
Lemma select1_kids x s k : In k (select1 x s) -> In k (xkids x).
Proof.
  unfold select1. destruct (snd s) as [i|].
  - destruct (nth_error _ (i - 1)) as [k'|] eqn:E; [|contradiction]. destruct (i =? 0); [contradiction|]. intros [<-|[]].
    apply nth_error_In in E. now apply filter_In in E.
  - intros H. now apply filter_In in H.
Qed.
Lemma select1_sum x s (g : xml -> nat) : list_sum (map g (select1 x s)) <= list_sum (map g (xkids x)).
Proof.
  unfold select1. set (m := filter _ (xkids x)). assert (F : list_sum (map g m) <= list_sum (map g (xkids x))) by apply sum_filter.
  destruct (snd s) as [i|]; [|exact F]. destruct (nth_error m (i - 1)) as [k|] eqn:E; [|apply Nat.le_0_l]. destruct (i =? 0); [apply Nat.le_0_l|].
  apply nth_error_In in E. apply (sum_in g) in E. cbn [map]. change (list_sum [g k]) with (g k + 0). lia.
Qed.
Lemma select_few p : forall x, length (select x p) <= elements x.
Proof.
  induction p as [|s p IH]; intros x; [destruct x; cbn [select length elements]; lia|]. cbn [select].
  apply Nat.le_trans with (list_sum (map elements (select1 x s))); [apply sum_flat; intros; apply IH|].
  apply Nat.le_trans with (list_sum (map elements (xkids x))); [apply select1_sum|]. destruct x as [n t k]. cbn [xkids elements]. lia.
Qed.
Lemma select_text p : forall x y, In y (select x p) -> length (xtext y) <= length (xtext x).
Proof.
  induction p as [|s p IH]; intros x y H; [destruct H as [->|[]]; apply Nat.le_refl|]. cbn [select] in H. apply in_flat_map in H. destruct H as (k & H1 & H2).
  apply Nat.le_trans with (length (xtext k)); [now apply IH|]. apply select1_kids in H1. destruct x as [n t ks]. cbn [xkids] in H1. cbn [xtext]. rewrite app_length.
  clear - H1. induction ks as [|a ks IH]; [contradiction|]. cbn [map concat]. rewrite app_length. destruct H1 as [->|H1]; [lia|]. specialize (IH H1). lia.
Qed.
Lemma moderate_parts x p : moderate x -> (Z.of_nat (count x p) < 2 ^ 31)%Z /\ forall n, node_at x p = Ret n -> (Z.of_nat (length (xtext n)) < 2 ^ 31)%Z.
Proof.
  intros [H1 H2]. split.
  - pose proof (select_few p x). unfold count. lia.
  - intros n E. apply node_select in E. assert (I : In n (select x p)) by (rewrite E; now left). apply select_text in I. lia.
Qed.
Lemma in_int32 n : (Z.of_nat n < 2 ^ 31)%Z -> in_kind int32 (Z.of_nat n).
Proof. intros H. unfold int32. cbn [in_kind]. change (Z.of_nat 32 - 1)%Z with 31%Z. split; [|exact H]. apply Z.le_trans with 0%Z; [|lia]. apply Z.opp_nonpos_nonneg. apply Z.pow_nonneg. lia. Qed.
Lemma receive_messages x q a rest : moderate x -> answer x q = Some a -> receive q (messages q a ++ rest) = Now a rest.
Proof.
  intros M H. destruct q as [k p|p|p|p]; cbn [answer] in H.
  - destruct (node_at x p) as [n| | |] eqn:E; try discriminate. destruct (get_num k (xtext n)) as [z| | |] eqn:G; try discriminate. inversion H; subst.
    cbn [messages app receive]. rewrite get_number_le; [reflexivity|]. exact (get_num_in_kind _ _ _ G).
  - destruct (node_at x p) as [n| | |] eqn:E; try discriminate. inversion H; subst. cbn [messages app receive].
    rewrite get_number_le by (apply in_int32; now apply (moderate_parts x p M)). now rewrite Z.eqb_refl.
  - inversion H; subst. cbn [messages app receive]. rewrite get_number_le by (apply in_int32; apply (moderate_parts x p M)).
    destruct (Z.ltb_spec (Z.of_nat (count x p)) 0) as [L|L]; [lia|]. now rewrite Nat2Z.id.
  - destruct (node_at x p) as [n| | |]; try discriminate. inversion H; subst. reflexivity.
Qed.
Lemma in_step {A} x (p : prog A) : moderate x -> forall r ms, run0 x p = (r, ms, false) -> forall rest, run1 p (ms ++ rest) = Ends r rest.
Proof.
  intros M. induction p as [a| | |q k IHk f IHf]; intros r ms H rest; cbn [run0] in H; [inversion H; subst; reflexivity..|].
  destruct (answer x q) as [a|] eqn:E.
  - destruct (run0 x (k a)) as [[r' ms'] b] eqn:K. inversion H; subst. cbn [run1]. rewrite <- app_assoc, (receive_messages x q a _ M E). now apply IHk.
  - destruct (run0 x f) as [[r' ms'] b]. inversion H.
Qed.

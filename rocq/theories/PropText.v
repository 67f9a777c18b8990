(** C91: text input and output, on several nodes; file objects.  See TextModel.v and TextSpec.v. *)
From Coq Require Import List Arith NArith ZArith Bool Lia.
From Verif Require Import Base NerscHeader XmlModel XmlSpec XmlProofs TextModel TextSpec TextProofs.
Import ListNotations.
Local Open Scope nat_scope.

(** Numbers, characters and words written with any white space after each are read back: on every node every variable holds
    what was written, no other variable has changed, and fail() is false. *)
Theorem C91_round_trip : forall r l e,
  Forall fine_piece l -> NoDup (map pvar l) ->
  let '(e', st) := read_prog r (program l) e (opened (written l)) in
  fail st = false
  /\ (forall p n, In p l -> e' n (pvar p) = pval p)
  /\ (forall n x, (forall p, In p l -> pvar p <> x) -> e' n x = e n x).
Proof.
  intros r l e Hl ND. destruct (read_pieces r l Hl [] e (Forall_nil _)) as (e' & ws' & E & _ & Ho & Hi).
  cbn [app] in E. rewrite E. split; [reflexivity|]. split; [intros; now apply Hi|exact Ho].
Qed.
Print Assumptions C91_round_trip.

(** Whatever the text holds, and also when reading fails: after any sequence of reads all nodes have the same values in
    the variables that were read, whatever these held before on each node, and the other variables are untouched. *)
Theorem C91_nodes_agree : forall r p e st x,
  let e' := fst (read_prog r p e st) in
  (In x (map snd p) -> forall n m, e' n x = e' m x)
  /\ (~ In x (map snd p) -> forall n, e' n x = e n x).
Proof.
  intros r p e st x e'. destruct (read_agree r p e st x) as [A B]. fold e' in A, B. split; [|exact B].
  intros I n m. rewrite (A I n), (A I m). reflexivity.
Qed.
Print Assumptions C91_nodes_agree.

(** A word comes back through a TextReader exactly if it is not empty and has no white space and no NUL in it. *)
Theorem C91_word : forall s sep old,
  sep <> [] -> spaces sep ->
  (let '(v, st) := get TWord old (opened (s ++ sep)) in as_sent Text v = W s /\ fail st = false) <-> carried s.
Proof.
  intros s sep old Hn Hs. split.
  - destruct s as [|s0 s'].
    { cbn [app]. unfold get, opened. cbn [eofb failb orb rest]. rewrite skip_spaces_all by exact Hs. intros [_ X]. discriminate. }
    set (s := s0 :: s'). assert (Hne : s <> []) by discriminate. clearbody s. clear s0 s'.
    unfold get, opened. cbn [eofb failb orb rest].
    destruct (skip_ws (s ++ sep)) as [|c t]; [intros [_ X]; discriminate|]. cbv zeta. cbn [as_sent fail failb].
    intros [E _]. injection E as E. pose proof (word_no_space (c :: t)) as X1. pose proof (to_nul_no_nul (word_of (c :: t))) as X2.
    cbn [word_of] in E, X1, X2. rewrite E in X2.
    assert (X3 : Forall (fun c => is_space c = false) s).
    { rewrite <- E. clear -X1. induction X1 as [|d w H _ IH]; cbn [to_nul]; [constructor|]. destruct (d =? 0)%N; constructor; auto. }
    split; [exact Hne|]. apply Forall_forall. intros d Hd.
    split; [rewrite Forall_forall in X3; now apply X3|rewrite Forall_forall in X2; now apply X2].
  - intros Hc. pose proof (get_word old [] s sep [] (Forall_nil _) Hc Hn Hs) as E. cbn [app] in E. rewrite !app_nil_r in E.
    rewrite E. split; [|reflexivity]. cbn. rewrite to_nul_all; [reflexivity|]. destruct Hc as [_ Hc]. eapply Forall_impl; [|exact Hc]. cbn; tauto.
Qed.
Print Assumptions C91_word.

(** Seeds of the generator come back (each of the four numbers is written with a line end). *)
Theorem C91_seed : forall k l olds,
  Forall (in_kind k) l -> length olds = length l ->
  exists st, get_parts k olds (opened (show_seed l)) = (l, st) /\ fail st = false.
Proof.
  intros k l olds Hl L. destruct (get_seed k l Hl olds [] L (Forall_nil _)) as (ws & E & _). cbn [app] in E.
  exists (opened ws). split; [exact E|reflexivity].
Qed.
Print Assumptions C91_seed.

(** Complex numbers, vectors and matrices do not: their parts are written with nothing between them.  For any two or more
    whole numbers, the ones after the first not negative, the first read takes all the digits and the next one fails,
    whatever the type and whatever the variables held. *)
Theorem C91_parts_refuted : forall k z1 z2 l o1 o2 olds,
  Forall (fun z => 0 <= z)%Z (z2 :: l) ->
  fail (snd (get_parts k (o1 :: o2 :: olds) (opened (show_parts (z1 :: z2 :: l))))) = true.
Proof.
  intros k z1 z2 l o1 o2 olds H. destruct (show_int_numeral z1) as (neg & m & Hn & _).
  destruct (numeral_more _ _ _ (show_parts (z2 :: l)) Hn (show_parts_digits _ H)) as (m' & Hm).
  change (show_parts (z1 :: z2 :: l)) with (show_int z1 ++ show_parts (z2 :: l)).
  destruct (get_numeral_all k (I o1) _ _ _ Hm) as (v & f & E). cbn [get_parts]. rewrite E. rewrite get_stuck by now left.
  pose proof (get_parts_stuck k olds (mkIst [] true true) eq_refl) as S. cbn [rest eofb]. unfold fail.
  destruct (get_parts k olds (mkIst [] true true)). exact S.
Qed.
Print Assumptions C91_parts_refuted.

(** A TextBufferReader that has read its text to the end cannot be opened on another: every read fails, although nothing
    failed before. *)
Theorem C91_buffer_again_refuted : forall k z o s,
  in_kind k z ->
  let st := snd (get (TInt k) o (opened (show_int z))) in
  fail st = false /\ forall t old, fst (get t old (buffer_open s st)) = old /\ fail (snd (get t old (buffer_open s st))) = true.
Proof.
  intros k z o s H st. assert (E : st = mkIst [] true false).
  { unfold st. pose proof (get_show k o [] z [] H (Forall_nil _) stops_nil) as E. rewrite app_nil_r in E. cbn [app] in E. now rewrite E. }
  rewrite E. split; [reflexivity|]. intros t old. rewrite get_stuck by now left. split; reflexivity.
Qed.
Print Assumptions C91_buffer_again_refuted.

(** A TextBufferWriter holds what was written to it ... *)
Theorem C91_buffer : forall l, obytes (fold_left (fun b s => buffer_put s b) l new_buffer) = concat l.
Proof.
  intros l. enough (H : forall b, opos b = length (obytes b) ->
    obytes (fold_left (fun b s => buffer_put s b) l b) = obytes b ++ concat l) by exact (H new_buffer eq_refl).
  induction l as [|s l IH]; intros b Hb; cbn [fold_left concat]; [now rewrite app_nil_r|].
  rewrite IH; cbn [buffer_put obytes opos]; rewrite Hb, firstn_all, skipn_all2 by lia; rewrite app_nil_r.
  - now rewrite app_assoc.
  - now rewrite app_length.
Qed.
Print Assumptions C91_buffer.
(** ... but if it was given a text at the start, that is written over from its beginning instead of being continued. *)
Theorem C91_buffer_text_refuted : forall s l,
  obytes (fold_left (fun b t => buffer_put t b) l (buffer_from s)) = concat l ++ skipn (length (concat l)) s.
Proof.
  intros s l. enough (H : forall b w, opos b = length w -> obytes b = w ++ skipn (length w) s ->
    obytes (fold_left (fun b t => buffer_put t b) l b) = (w ++ concat l) ++ skipn (length (w ++ concat l)) s)
    by exact (H (buffer_from s) [] eq_refl eq_refl).
  induction l as [|t l IH]; intros b w Hp Hb; cbn [fold_left concat]; [now rewrite app_nil_r|].
  rewrite app_assoc. apply IH; cbn [buffer_put obytes opos].
  - rewrite Hp. now rewrite app_length.
  - rewrite Hp, Hb, firstn_app, firstn_all, Nat.sub_diag. cbn [firstn]. rewrite app_nil_r, <- app_assoc. do 2 f_equal.
    rewrite skipn_app, skipn_all2 by lia. cbn [app]. rewrite skipn_twice. f_equal. rewrite app_length. lia.
Qed.
Print Assumptions C91_buffer_text_refuted.

(** Files opened, written and closed one after the other with one object: each holds what was written the last time it
    was open, and the others are untouched. *)
Theorem C91_files : forall k l d failed,
  exists f, frun k (flat_map session l) (mkF d None failed) = Ret f
    /\ forall name, disk f name = holds l (d name) name.
Proof.
  intros k l d failed. destruct (frun_sessions k l d failed) as (d' & ff & E & H). eexists. split; [exact E|exact H].
Qed.
Print Assumptions C91_files.

(** Opening a second file without closing the first: with a text or binary writer the program goes on, the second file is
    neither made nor emptied, and everything written from there on is lost; with an XML writer the program ends. *)
Theorem C91_open_twice_refuted : forall a b l1 l2 d,
  let history := FOpen a :: map FWrite l1 ++ FOpen b :: map FWrite l2 ++ [FClose] in
  (exists f, frun TextOrBinary history (mkF d None false) = Ret f
     /\ disk f a = Some (concat l1) /\ forall name, name <> a -> disk f name = d name)
  /\ frun Xml history (mkF d None false) = Halt.
Proof.
  intros a b l1 l2 d history.
  assert (H : forall k, exists d', frun k (FOpen a :: map FWrite l1) (mkF d None false) = Ret (mkF d' (Some a) false)
     /\ d' a = Some (concat l1) /\ forall name, name <> a -> d' name = d name).
  { intros k. unfold frun. cbn [ofold]. rewrite fexec_open. cbn [obind].
    destruct (frun_writes k l1 (fun n => if n =? a then Some [] else d n) a []) as (d' & E & E1 & E2); [now rewrite Nat.eqb_refl|].
    unfold frun in E. rewrite E. exists d'. split; [reflexivity|]. split; [exact E1|]. intros n Hn. rewrite E2 by exact Hn.
    destruct (Nat.eqb_spec n a); [contradiction|reflexivity]. }
  subst history. change (FOpen a :: map FWrite l1 ++ FOpen b :: map FWrite l2 ++ [FClose])
    with ((FOpen a :: map FWrite l1) ++ ([FOpen b] ++ (map FWrite l2 ++ [FClose]))).
  split.
  - destruct (H TextOrBinary) as (d' & E & E1 & E2). rewrite frun_app, E. cbn [obind]. rewrite frun_app.
    unfold frun at 1. cbn [ofold fexec cur disk obind]. rewrite frun_app, frun_failed. cbn [obind]. eexists. split; [reflexivity|]. split; assumption.
  - destruct (H Xml) as (d' & E & E1 & E2). rewrite frun_app, E. reflexivity.
Qed.
Print Assumptions C91_open_twice_refuted.

(** A number, a word, a character and a bool. *)
Example C91_round_trip_met :
  let l := [mkP (TInt (Signed 32)) 0 (I (-17)) [32%N]; mkP TWord 1 (W [97;98]%N) [10%N]; mkP TCh 2 (C 120%N) [32;32]%N;
            mkP (TInt KBool) 3 (I 1) [10%N]] in
  Forall fine_piece l /\ NoDup (map pvar l).
Proof.
  cbv zeta. split.
  - assert (S : forall c, is_space c = true -> spaces [c]) by (intros c H; constructor; [exact H|constructor]).
    constructor; [|constructor; [|constructor; [|constructor; [|constructor]]]]; (split; [|split; [discriminate|]]).
    + cbn. lia.
    + now apply S.
    + split; [discriminate|]. constructor; [split; [reflexivity|discriminate]|]. constructor; [split; [reflexivity|discriminate]|constructor].
    + now apply S.
    + reflexivity.
    + constructor; [reflexivity|now apply S].
    + now right.
    + now apply S.
  - repeat (apply NoDup_cons; [cbn; lia|]). constructor.
Qed.
(** 1 and 2 as a complex number: "12". *)
Example C91_parts_met : get_parts (Signed 32) [5; 6]%Z (opened (show_parts [1; 2]%Z)) = ([12; 6]%Z, mkIst [] true true).
Proof. reflexivity. Qed.
Example C91_open_twice_met :
  match frun TextOrBinary [FOpen 1; FWrite [65%N]; FOpen 2; FWrite [66%N]; FClose] (mkF (fun _ => None) None false) with
  | Ret f => disk f 1 = Some [65%N] /\ disk f 2 = None
  | _ => False
  end.
Proof. split; reflexivity. Qed.

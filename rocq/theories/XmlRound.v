(** Proofs about XML input and output: documents are read back. *)
From Coq Require Import String List Arith NArith ZArith Bool Sorted Ascii Lia.
From Verif Require Import Base NerscHeader NerscText XmlModel XmlSpec XmlProofs.
Import ListNotations.
Local Open Scope nat_scope.
Local Notation length := List.length.

(** ** The elements that writing appends *)
Lemma separated_words l : separated (map show_int l) = show_words l.
Proof.
  induction l as [|a l IH]; [reflexivity|]. destruct l as [|b l]; [cbn [map separated show_words concat]; now rewrite app_nil_r|].
  cbn [map separated] in *. rewrite IH. reflexivity.
Qed.
Lemma enc_num k s z : enc (TNum k) s (VNum z) = leaf s (show_num k z).
Proof. destruct k; reflexivity. Qed.
Lemma enc_seq c t s l : enc (TSeq c t) s (VSeq l) = if is_word t then leaf s (show_words (map num_of l)) else Elem s [] (map (enc t elem_tag) l).
Proof. destruct t; try reflexivity. cbn [enc is_word]. now rewrite <- separated_words, map_map. Qed.
Lemma enc_name t s v : xname (enc t s v) = s.
Proof. destruct t as [| |k|c t| | | |], v; try reflexivity; try (destruct k; reflexivity); destruct t; reflexivity. Qed.

Lemma ofold_append {A} (f : A -> wst -> out wst) (e : A -> xml) l :
  (forall a n t k w, In a l -> f a (Elem n t k :: w) = Ret (Elem n t (k ++ [e a]) :: w)) ->
  forall n t k w, ofold f l (Elem n t k :: w) = Ret (Elem n t (k ++ map e l) :: w).
Proof.
  induction l as [|a l IH]; intros H n t k w; cbn [ofold map]; [now rewrite app_nil_r|].
  rewrite (H a) by (left; reflexivity). cbn [obind]. rewrite IH by (intros; apply H; now right). now rewrite <- app_assoc.
Qed.
Lemma words_of_ok k l : Forall (has (TNum k)) l -> words_of l = Ret (map num_of l).
Proof.
  intros H. apply omap_ok. eapply Forall_impl; [|exact H]. intros v. destruct v; cbn [has]; try contradiction. reflexivity.
Qed.
Lemma write_enc t : forall s v n x k w, has t v -> write t s v (Elem n x k :: w) = Ret (Elem n x (k ++ [enc t s v]) :: w).
Proof.
  induction t as [| |kd|c t IH|tk IHk tv IHv|ta IHa tb IHb|t IH|]; intros s v n x k w H; destruct v as [b|z|l|l|a b];
    try (cbn [has] in H; contradiction).
  - reflexivity.
  - cbn [has] in H. destruct b as [|c [|c' b]]; try contradiction. reflexivity.
  - rewrite enc_num. reflexivity.
  - rewrite enc_seq. cbn [write]. cbn [has] in H. destruct (is_word t) eqn:W.
    + destruct t; try discriminate. rewrite (words_of_ok k0) by exact H. reflexivity.
    + cbn [obind open_tag]. rewrite (ofold_append _ (enc t elem_tag)); [reflexivity|].
      intros a n' t' k' w' Ha. apply IH. rewrite Forall_forall in H. now apply H.
  - cbn [write enc]. cbn [has] in H. destruct H as [H _]. cbn [obind open_tag].
    rewrite (ofold_append _ (fun e => Elem elem_tag [] [enc tk "Key" (fst e); enc tv "Val" (snd e)])); [reflexivity|].
    intros e n' t' k' w' He. rewrite Forall_forall in H. destruct (H e He) as [H1 H2]. cbn [obind open_tag].
    rewrite IHk by exact H1. cbn [obind app]. rewrite IHv by exact H2. reflexivity.
  - cbn [write enc]. destruct H as [H1 H2]. cbn [obind open_tag]. rewrite IHa by exact H1. cbn [obind app]. rewrite IHb by exact H2. reflexivity.
  - cbn [write enc]. destruct H as [H1 H2]. cbn [obind open_tag]. rewrite IH by exact H1. cbn [obind app]. rewrite IH by exact H2. reflexivity.
  - destruct H as [HL HF]. destruct l as [|v0 [|v1 [|v2 [|v3 [|v4 l]]]]]; try discriminate.
    inversion HF as [|? ? (z0 & -> & _) HF0]; subst. inversion HF0 as [|? ? (z1 & -> & _) HF1]; subst.
    inversion HF1 as [|? ? (z2 & -> & _) HF2]; subst. inversion HF2 as [|? ? (z3 & -> & _) HF3]; subst. reflexivity.
Qed.

(** ** What was written is legal XML *)
Lemma show_int_plain z : forallb plain (show_int z) = true.
Proof.
  apply forallb_forall. intros c Hc. destruct (show_int_numeral z) as (neg & m & Hn & _).
  assert (G : forall s, dec_digits s -> In c s -> plain c = true).
  { intros s [_ F] I. rewrite Forall_forall in F. specialize (F c I). unfold plain. lia. }
  inversion Hn as [s D E1 E2|s D E1 E2|s D E1 E2].
  - subst. eapply G; eassumption.
  - rewrite <- E1 in Hc. destruct Hc as [<-|Hc]; [reflexivity|]. eapply G; eassumption.
  - rewrite <- E1 in Hc. destruct Hc as [<-|Hc]; [reflexivity|]. eapply G; eassumption.
Qed.
Lemma show_num_plain k z : forallb plain (show_num k z) = true.
Proof. destruct k; cbn [show_num]; [apply show_int_plain|apply show_int_plain|]. now destruct (z =? 0)%Z. Qed.
Lemma show_words_plain l : forallb plain (show_words l) = true.
Proof.
  induction l as [|z l IH]; [reflexivity|]. destruct l as [|y l].
  - change (show_words [z]) with (show_int z ++ []). rewrite app_nil_r. apply show_int_plain.
  - rewrite show_words_cons by discriminate. rewrite forallb_app. cbn [forallb]. rewrite show_int_plain, IH. reflexivity.
Qed.
Lemma sound_leaf s b : legal s = true -> forallb plain b = true -> sound (leaf s b) = true.
Proof. intros H1 H2. cbn [leaf sound forallb]. now rewrite H1, H2. Qed.
Lemma sound_node s k : legal s = true -> Forall (fun x => sound x = true) k -> sound (Elem s [] k) = true.
Proof. intros H1 H2. cbn [sound forallb]. rewrite H1. cbn [andb]. apply forallb_forall. now apply Forall_forall. Qed.
Lemma sound_enc t : forall s v, has t v -> legal s = true -> sound (enc t s v) = true.
Proof.
  induction t as [| |kd|c t IH|tk IHk tv IHv|ta IHa tb IHb|t IH|]; intros s v H L; destruct v as [b|z|l|l|a b];
    try (cbn [has] in H; contradiction); rewrite ?enc_num, ?enc_seq; cbn [enc].
  - apply sound_leaf; [exact L|]. apply forallb_forall. now apply Forall_forall.
  - cbn [has] in H. destruct b as [|c [|c' b]]; try contradiction. apply sound_leaf; [exact L|]. cbn [forallb]. now rewrite H.
  - apply sound_leaf; [exact L|apply show_num_plain].
  - destruct (is_word t); [apply sound_leaf; [exact L|apply show_words_plain]|].
    apply sound_node; [exact L|]. apply Forall_map. eapply Forall_impl; [|exact H]. intros v Hv. now apply IH.
  - apply sound_node; [exact L|]. apply Forall_map. destruct H as [H _]. eapply Forall_impl; [|exact H]. intros e [H1 H2].
    apply sound_node; [reflexivity|]. repeat constructor; [now apply IHk|now apply IHv].
  - destruct H as [H1 H2]. apply sound_node; [exact L|]. repeat constructor; [now apply IHa|now apply IHb].
  - destruct H as [H1 H2]. apply sound_node; [exact L|]. repeat constructor; now apply IH.
  - apply sound_node; [exact L|]. constructor; [|constructor]. apply sound_node; [reflexivity|]. apply Forall_map.
    destruct H as [_ H]. eapply Forall_impl; [|exact H]. intros v _. apply sound_leaf; [reflexivity|apply show_int_plain].
Qed.

(** ** Queries *)
Lemma select_app x p q : select x (p ++ q) = flat_map (fun y => select y q) (select x p).
Proof.
  revert x. induction p as [|s p IH]; intros x; cbn [app select]; [now rewrite flat_map_concat_map; cbn [map concat]; rewrite app_nil_r|].
  induction (select1 x s) as [|y l IHl]; [reflexivity|]. cbn [flat_map]. rewrite flat_map_app, IHl. now rewrite IH.
Qed.
Lemma select_one x p q y : select x p = [y] -> select x (p ++ q) = select y q.
Proof. intros E. rewrite select_app, E. cbn [flat_map]. apply app_nil_r. Qed.
Lemma select_down x s : select x (down s) = filter (fun k => String.eqb (xname k) s) (xkids x).
Proof.
  unfold down. cbn [select select1 fst snd]. induction (filter _ _) as [|y l IH]; [reflexivity|]. cbn [flat_map app]. now rewrite IH.
Qed.
Lemma filter_all {A} (f : A -> bool) l : Forall (fun a => f a = true) l -> filter f l = l.
Proof. induction 1 as [|a l H _ IH]; [reflexivity|]. cbn [filter]. now rewrite H, IH. Qed.
Definition elems (k : list xml) : Prop := Forall (fun x => xname x = elem_tag) k.
Lemma count_elems n t k : elems k -> count (Elem n t k) (down elem_tag) = length k.
Proof.
  intros H. unfold count. rewrite select_down. cbn [xkids]. rewrite filter_all; [reflexivity|]. eapply Forall_impl; [|exact H].
  intros x E. now rewrite E.
Qed.
Lemma select_nth n t k i y : elems k -> nth_error k i = Some y -> select (Elem n t k) (nth_path i) = [y].
Proof.
  intros H E. unfold nth_path. cbn [select select1 fst snd xkids]. rewrite filter_all.
  - replace (i + 1 - 1) with i by lia. rewrite E. replace (i + 1 =? 0) with false by (symmetry; apply Nat.eqb_neq; lia). reflexivity.
  - eapply Forall_impl; [|exact H]. intros x X. now rewrite X.
Qed.
Lemma node_one x p y : select x p = [y] -> node_at x p = Ret y.
Proof. intros E. unfold node_at. now rewrite E. Qed.

Lemma omap_seq {A B} (f : nat -> out B) (g : A -> B) l : forall b,
  (forall i a, nth_error l i = Some a -> f (b + i) = Ret (g a)) -> omap f (seq b (length l)) = Ret (map g l).
Proof.
  induction l as [|a l IH]; intros b H; [reflexivity|]. cbn [length seq omap map].
  pose proof (H 0 a eq_refl) as H0. rewrite Nat.add_0_r in H0. rewrite H0. cbn [obind]. rewrite (IH (S b)); [reflexivity|].
  intros i a' E. replace (S b + i) with (b + S i) by lia. now apply H.
Qed.
Lemma read_elems_ok {A} (rd : xml -> path -> out value) (e : A -> xml) (g : A -> value) n t l :
  (forall a, xname (e a) = elem_tag) -> (forall a x p, In a l -> select x p = [e a] -> rd x p = Ret (g a)) ->
  read_elems rd (Elem n t (map e l)) = Ret (map g l).
Proof.
  intros Hn Hr. assert (E : elems (map e l)) by (apply Forall_map; apply Forall_forall; intros; apply Hn).
  unfold read_elems. rewrite count_elems by exact E. rewrite map_length. apply (omap_seq _ g).
  intros i a Ha. cbn [Nat.add]. apply Hr; [eapply nth_error_In; exact Ha|]. apply select_nth; [exact E|]. now apply map_nth_error.
Qed.

(** ** Maps *)
Lemma scompare_eq a : forall b, scompare a b = Eq <-> a = b.
Proof.
  induction a as [|x a IH]; intros [|y b]; cbn [scompare]; try (split; [discriminate|discriminate]); [tauto|].
  destruct (N.compare_spec x y) as [->|L|L].
  - rewrite IH. split; [now intros ->|now intros [= ->]].
  - split; [discriminate|]. intros [= -> _]. lia.
  - split; [discriminate|]. intros [= -> _]. lia.
Qed.
Lemma scompare_sym a : forall b, scompare b a = CompOpp (scompare a b).
Proof.
  induction a as [|x a IH]; intros [|y b]; cbn [scompare CompOpp]; try reflexivity. rewrite (N.compare_antisym x y).
  destruct (N.compare x y); cbn [CompOpp]; [apply IH|reflexivity|reflexivity].
Qed.
Lemma scompare_trans a : forall b c, scompare a b = Lt -> scompare b c = Lt -> scompare a c = Lt.
Proof.
  induction a as [|x a IH]; intros [|y b] [|z c]; cbn [scompare]; try discriminate; try reflexivity.
  destruct (N.compare_spec x y) as [->|L|L]; destruct (N.compare_spec y z) as [->|M|M]; try discriminate; intros H1 H2.
  - now apply (IH b c).
  - reflexivity.
  - destruct (N.compare_spec x z); try reflexivity; lia.
  - destruct (N.compare_spec x z); try reflexivity; lia.
Qed.
Definition key (t : ty) (v : value) : Prop := key_ty t /\ has t v.
Lemma key_cases t v : key t v -> (t = TStr /\ exists s, v = VStr s) \/ (exists k, t = TNum k) /\ exists z, v = VNum z.
Proof. intros [K H]. destruct t; try contradiction; destruct v; cbn [has] in H; try contradiction; eauto 6. Qed.
Lemma kcompare_eq t a b : key t a -> key t b -> kcompare a b = Eq <-> a = b.
Proof.
  intros Ha Hb. destruct (key_cases t a Ha) as [[-> [s ->]]|[[k ->] [z ->]]]; destruct (key_cases _ b Hb) as [[E [s' ->]]|[[k' E] [z' ->]]]; try discriminate; cbn [kcompare].
  - rewrite scompare_eq. split; [now intros ->|now intros [= ->]].
  - rewrite Z.compare_eq_iff. split; [now intros ->|now intros [= ->]].
Qed.
Lemma kcompare_sym t a b : key t a -> key t b -> kcompare b a = CompOpp (kcompare a b).
Proof.
  intros Ha Hb. destruct (key_cases t a Ha) as [[-> [s ->]]|[[k ->] [z ->]]]; destruct (key_cases _ b Hb) as [[E [s' ->]]|[[k' E] [z' ->]]]; try discriminate; cbn [kcompare].
  - apply scompare_sym.
  - apply Z.compare_antisym.
Qed.
Lemma kcompare_trans t a b c : key t a -> key t b -> key t c -> kcompare a b = Lt -> kcompare b c = Lt -> kcompare a c = Lt.
Proof.
  intros Ha Hb Hc. destruct (key_cases t a Ha) as [[-> [s ->]]|[[k ->] [z ->]]]; destruct (key_cases _ b Hb) as [[E [s' ->]]|[[k' E] [z' ->]]]; try discriminate;
    destruct (key_cases _ c Hc) as [[E' [s'' ->]]|[[k'' E'] [z'' ->]]]; try discriminate; cbn [kcompare].
  - apply scompare_trans.
  - rewrite !Z.compare_lt_iff. lia.
Qed.
(** Inserting a key above all others appends it. *)
Lemma map_insert_last t k v m : key t k -> Forall (fun e => key t (fst e)) m -> Forall (fun e => kcompare (fst e) k = Lt) m ->
  map_insert k v m = m ++ [(k, v)].
Proof.
  intros Hk HK. induction HK as [|[k' v'] m H HK IH]; intros L; [reflexivity|]. inversion L as [|? ? L1 L2]; subst. cbn [fst] in *.
  cbn [map_insert app]. rewrite (kcompare_sym t k' k H Hk), L1. cbn [CompOpp]. now rewrite IH.
Qed.

(** Reading entries: the keys and values come one after the other. *)
Definition entry (tk tv : ty) (e : value * value) : xml := Elem elem_tag [] [enc tk "Key" (fst e); enc tv "Val" (snd e)].
Lemma read_entries_ok (rk rv : xml -> path -> out value) ins tk tv l :
  (forall e x p, In e l -> select x p = [enc tk "Key" (fst e)] -> rk x p = Ret (fst e)) ->
  (forall e x p, In e l -> select x p = [enc tv "Val" (snd e)] -> rv x p = Ret (snd e)) ->
  forall n t m, read_entries rk rv ins (Elem n t (map (entry tk tv) l)) m = Ret (fold_left (fun m e => ins (fst e) (snd e) m) l m).
Proof.
  intros Hk Hv n t m. assert (E : elems (map (entry tk tv) l)) by (apply Forall_map; apply Forall_forall; reflexivity).
  unfold read_entries. rewrite count_elems by exact E. rewrite map_length.
  assert (G : forall i e, nth_error l i = Some e -> select (Elem n t (map (entry tk tv) l)) (nth_path i) = [entry tk tv e]).
  { intros i e H. apply select_nth; [exact E|]. now apply map_nth_error. }
  revert G. generalize (Elem n t (map (entry tk tv) l)) as top. clear E. intros top G.
  assert (X : forall l' b m, (forall i e, nth_error l' i = Some e -> select top (nth_path (b + i)) = [entry tk tv e] /\ In e l) ->
    ofold (fun i m => obind (node_at top (nth_path i)) (fun e => obind (rk e (down "Key")) (fun k => obind (rv e (down "Val")) (fun v => Ret (ins k v m))))) (seq b (length l')) m
    = Ret (fold_left (fun m e => ins (fst e) (snd e) m) l' m)).
  { induction l' as [|e l' IH]; intros b m0 H; [reflexivity|]. cbn [length seq ofold fold_left].
    destruct (H 0 e eq_refl) as [H0 HI]. rewrite Nat.add_0_r in H0. rewrite (node_one _ _ _ H0). cbn [obind].
    assert (KV : "Key"%string <> "Val"%string) by discriminate.
    rewrite (Hk e); [|exact HI|].
    2:{ rewrite select_down. unfold entry. cbn [xkids filter]. rewrite !enc_name. reflexivity. }
    cbn [obind]. rewrite (Hv e); [|exact HI|].
    2:{ rewrite select_down. unfold entry. cbn [xkids filter]. rewrite !enc_name. reflexivity. }
    cbn [obind]. apply IH. intros i e' He. replace (S b + i) with (b + S i) by lia. now apply H. }
  apply X. intros i e He. split; [now apply G|eapply nth_error_In; exact He].
Qed.

Lemma fold_sorted t l : forall m, Forall (fun e => key t (fst e)) (m ++ l) -> StronglySorted (fun a b => kcompare a b = Lt) (map fst (m ++ l)) ->
  fold_left (fun m e => map_insert (fst e) (snd e) m) l m = m ++ l.
Proof.
  induction l as [|e l IH]; intros m HK HS; cbn [fold_left]; [now rewrite app_nil_r|].
  assert (A : map_insert (fst e) (snd e) m = m ++ [e]).
  { apply Forall_app in HK. destruct HK as [HK1 HK2]. inversion HK2 as [|? ? HK3 HK4]; subst. destruct e as [k v]. cbn [fst snd] in *.
    apply (map_insert_last t); [exact HK3|exact HK1|].
    clear - HS. rewrite map_app in HS. induction m as [|a m IH]; [constructor|]. cbn [map app] in HS. inversion HS as [|? ? H1 H2]; subst.
    constructor; [|now apply IH]. rewrite Forall_forall in H2. apply H2. apply in_or_app. right. left. reflexivity. }
  rewrite A. replace (m ++ e :: l) with ((m ++ [e]) ++ l) in * by now rewrite <- app_assoc. now apply IH.
Qed.

(** ** Reading what was written *)
Lemma xtext_leaf s b : xtext (leaf s b) = b.
Proof. unfold leaf. cbn [xtext map concat]. apply app_nil_r. Qed.
Lemma map_num_of k l : Forall (has (TNum k)) l -> map VNum (map num_of l) = l /\ Forall (in_kind k) (map num_of l).
Proof.
  induction 1 as [|v l H _ [IH1 IH2]]; [split; [reflexivity|constructor]|]. destruct v; cbn [has] in H; try contradiction. cbn [map num_of]. rewrite IH1. split; [reflexivity|now constructor].
Qed.
Lemma read_enc t : forall s v x p, readable t -> has t v -> select x p = [enc t s v] -> read t x p = Ret v.
Proof.
  induction t as [| |kd|c t IH|tk IHk tv IHv|ta IHa tb IHb|t IH|]; intros s v x p R H E; destruct v as [b|z|l|l|a b];
    try (cbn [has] in H; contradiction).
  - cbn [read]. rewrite (node_one _ _ _ E). cbn [obind enc]. now rewrite xtext_leaf.
  - cbn [has] in H. destruct b as [|c [|c' b]]; try contradiction. cbn [read]. rewrite (node_one _ _ _ E). cbn [obind enc]. now rewrite xtext_leaf.
  - cbn [read]. rewrite (node_one _ _ _ E). cbn [obind]. rewrite enc_num, xtext_leaf, get_num_show by exact H. reflexivity.
  - rewrite enc_seq in E. cbn [has] in H. destruct (is_word t) eqn:W.
    + destruct t as [| |k| | | | |]; try discriminate. destruct (map_num_of k l H) as [M1 M2].
      destruct (spelled_read k _ _ (show_words_spelled k _ M2)) as [A B].
      destruct c; cbn [read]; rewrite (node_one _ _ _ E); cbn [obind]; rewrite xtext_leaf; rewrite ?A, ?B; cbn [obind]; unfold nums; now rewrite M1.
    + assert (C : c <> StdList).
      { intros ->. cbn [readable] in R. congruence. }
      assert (R' : readable t).
      { destruct c; cbn [readable] in R; [exact R| |congruence]. destruct t; exact R || discriminate. }
      assert (X : read (TSeq c t) x p = obind (node_at x p) (fun top => obind (read_elems (read t) top) (fun l => Ret (VSeq l)))).
      { destruct c; [| |congruence]; destruct t; reflexivity || discriminate. }
      rewrite X, (node_one _ _ _ E). cbn [obind].
      rewrite (read_elems_ok (read t) (enc t elem_tag) (fun v => v)).
      * cbn [obind]. now rewrite map_id.
      * intros a. apply enc_name.
      * intros a x' p' Ha Hs. rewrite Forall_forall in H. now apply (IH elem_tag a); [|apply H|].
  - cbn [read]. rewrite (node_one _ _ _ E). cbn [obind enc]. destruct R as [RK RV]. destruct H as [HF HS].
    assert (RK' : readable tk) by (destruct tk; try contradiction; exact I).
    change (map (fun e : value * value => Elem elem_tag [] [enc tk "Key" (fst e); enc tv "Val" (snd e)]) l) with (map (entry tk tv) l).
    rewrite Forall_forall in HF.
    rewrite (read_entries_ok (read tk) (read tv) map_insert tk tv l).
    + cbn [obind]. rewrite (fold_sorted tk l []); [reflexivity| |exact HS]. cbn [app]. apply Forall_forall. intros e He. split; [exact RK|]. now apply HF.
    + intros e x' p' He Hs. destruct (HF e He) as [H1 _]. now apply (IHk "Key"%string).
    + intros e x' p' He Hs. destruct (HF e He) as [_ H1]. now apply (IHv "Val"%string).
  - cbn [read]. rewrite (node_one _ _ _ E). cbn [obind enc]. destruct R as [RA RB]. destruct H as [HA HB].
    rewrite (IHa "First"%string a); [|exact RA|exact HA|].
    2:{ rewrite select_down. cbn [xkids filter]. rewrite !enc_name. reflexivity. }
    cbn [obind]. rewrite (IHb "Second"%string b); [reflexivity|exact RB|exact HB|].
    rewrite select_down. cbn [xkids filter]. rewrite !enc_name. reflexivity.
  - cbn [read]. destruct H as [HA HB]. cbn [enc] in E.
    rewrite (IH "re"%string a); [|exact R|exact HA|].
    2:{ rewrite (select_one _ _ _ _ E), select_down. cbn [xkids filter]. rewrite !enc_name. reflexivity. }
    cbn [obind]. rewrite (IH "im"%string b); [reflexivity|exact R|exact HB|].
    rewrite (select_one _ _ _ _ E), select_down. cbn [xkids filter]. rewrite !enc_name. reflexivity.
  - cbn [read]. cbn [enc] in E. destruct H as [HL HF].
    rewrite (node_one x (p ++ down "Seed") (Elem "Seed" [] (map (fun v => leaf elem_tag (show_int (num_of v))) l))).
    2:{ rewrite (select_one _ _ _ _ E), select_down. reflexivity. }
    cbn [obind].
    rewrite (read_elems_ok _ (fun v => leaf elem_tag (show_int (num_of v))) (fun v => v)).
    + cbn [obind]. rewrite map_id. clear - HL. destruct l as [|v0 [|v1 [|v2 [|v3 [|v4 l]]]]]; try discriminate. reflexivity.
    + reflexivity.
    + intros v x' p' Hv Hs. rewrite (node_one _ _ _ Hs). cbn [obind]. rewrite xtext_leaf.
      rewrite Forall_forall in HF. destruct (HF v Hv) as (z & -> & Hz). cbn [num_of].
      change (show_int z) with (show_num (Signed 32) z). now rewrite get_num_show.
Qed.

From Coq Require Import String.
From Coq Require Import List ZArith Bool Lia.
From Verif Require Import XmlModel ArrWriteModel ArrWriteSpec.
Import ListNotations.
Local Open Scope Z_scope.
Local Notation length := List.length.

Lemma run_app l1 l2 a : run (l1 ++ l2) a = obind (run l1 a) (run l2).
Proof.
  revert a. induction l1 as [|c l1 IH]; intros a; cbn [run app]; [reflexivity|].
  destruct (exec c a); cbn [obind]; [apply IH|reflexivity..].
Qed.

Definition ins (m : list mark) (a : arr) : arr :=
  mkArr (stream a ++ m) (outer a) (names a) (rooted a) (initP a) (arrayTag a) (context a) (written a) (asize a).
Lemma ins_ins m n a : ins n (ins m a) = ins (m ++ n) a.
Proof. unfold ins; cbn. now rewrite app_assoc. Qed.
Lemma ins_nil a : ins [] a = a.
Proof. unfold ins. rewrite app_nil_r. now destruct a. Qed.

Section item_rect.
  Variable P : item -> Prop.
  Hypothesis HG : forall s l, Forall P l -> P (Group s l).
  Hypothesis HT : forall s l, Forall P l -> P (Tagged s l).
  Hypothesis HP : forall b, P (Plain b).
  Fixpoint item_rec2 (i : item) : P i :=
    let go := fix go (l : list item) : Forall P l :=
      match l with [] => Forall_nil _ | j :: l => Forall_cons _ (item_rec2 j) (go l) end in
    match i with Group s l => HG s l (go l) | Tagged s l => HT s l (go l) | Plain b => HP b end.
End item_rect.

(** Inside an element, or inside a tag of an element. *)
Definition inside (a : arr) : Prop :=
  initP a = true /\ arrayTag a = true /\ rooted a = true /\ names a <> [] /\ exists c, context a = S c.
Lemma inside_ins m a : inside a -> inside (ins m a).
Proof. intros (?&?&?&?&?); repeat split; assumption. Qed.

Lemma run_flat (l : list item) :
  Forall (fun i => forall a, inside a -> run (commands i) a = Ret (ins (marks (tree i)) a)) l ->
  forall a, inside a -> run (flat_map commands l) a = Ret (ins (flat_map marks (map tree l)) a).
Proof.
  induction 1 as [|i l Hi Hl IH]; intros a Ha; cbn [flat_map map run].
  - now rewrite ins_nil.
  - rewrite run_app, Hi by assumption. cbn [obind]. rewrite IH by now apply inside_ins. now rewrite ins_ins.
Qed.

Lemma run_item i : forall a, inside a -> run (commands i) a = Ret (ins (marks (tree i)) a).
Proof.
  induction i as [s l IH|s l IH|b] using item_rec2; intros a Ha; pose proof Ha as (Hi & Ht & Hr & Hn & c & Hc);
    destruct a as [st o ns ro ip tg cx wr sz]; cbn in Hi, Ht, Hr, Hn, Hc; subst;
    destruct ns as [|n0 ns]; try (exfalso; now apply Hn).
  - cbn [commands run exec]. unfold open_struct. cbn -[flat_map run]. rewrite run_app, run_flat; [|assumption|].
    2: { repeat split; cbn; try congruence; eauto. }
    cbn [obind run exec]. unfold close_struct, ins. cbn -[flat_map]. now rewrite <- !app_assoc.
  - cbn [commands run exec]. unfold open_tag. cbn -[flat_map run]. rewrite run_app, run_flat; [|assumption|].
    2: { repeat split; cbn; try congruence; eauto. }
    cbn [obind run exec]. unfold close_tag, ins. cbn -[flat_map]. now rewrite <- !app_assoc.
  - reflexivity.
Qed.
Lemma run_items l a : inside a -> run (flat_map commands l) a = Ret (ins (flat_map marks (map tree l)) a).
Proof. apply run_flat. apply Forall_forall. intros i _. apply run_item. Qed.

(** The state between two elements. *)
Definition between (st : list mark) (o : list string) (name : string) (k sz : Z) : arr :=
  mkArr st o [name] true true true 0 k sz.
Definition named (st : list mark) (o : list string) (name : string) (sz : Z) : arr :=
  mkArr st o [name] true false true 0 0 sz.

Definition elem_marks (e : string * list item) : list mark := marks (El "elem" (map tree (snd e))).

Lemma open_element st o name ip k sz s items :
  ip = true \/ k = 0 ->
  run (Push s :: flat_map commands items) (mkArr st o [name] true ip true 0 k sz)
  = Ret (mkArr (st ++ Op "elem" :: flat_map marks (map tree items)) o ["elem"; name]%string true true true 1 k sz).
Proof.
  intros H. cbn [run exec]. unfold open_struct. cbn [arrayTag negb initP written].
  replace (negb ip && negb (k =? 0)) with false.
  2: { destruct H as [->| ->]; [reflexivity|]. now rewrite andb_false_r. }
  cbn -[flat_map run]. rewrite run_items.
  - unfold ins; cbn -[flat_map]. now rewrite <- app_assoc.
  - repeat split; cbn; try congruence; eauto.
Qed.
Lemma run_element st o name ip k sz e :
  ip = true \/ k = 0 ->
  run (element e) (mkArr st o [name] true ip true 0 k sz) = Ret (between (st ++ elem_marks e) o name (k + 1) sz).
Proof.
  intros H. unfold element.
  change (Push (fst e) :: flat_map commands (snd e) ++ [Pop]) with ((Push (fst e) :: flat_map commands (snd e)) ++ [Pop]).
  rewrite run_app, open_element by assumption. cbn [obind run exec]. unfold close_struct, close_tag, between, elem_marks.
  cbn -[flat_map]. now rewrite <- !app_assoc.
Qed.
Lemma run_elements l : forall st o name k sz,
  run (flat_map element l) (between st o name k sz) = Ret (between (st ++ flat_map elem_marks l) o name (k + Z.of_nat (length l)) sz).
Proof.
  induction l as [|e l IH]; intros; cbn [flat_map length].
  - unfold between. rewrite app_nil_r, Z.add_0_r. reflexivity.
  - rewrite run_app. unfold between at 1. rewrite run_element by auto. cbn [obind]. rewrite IH.
    rewrite <- app_assoc. do 2 f_equal. lia.
Qed.
Lemma run_name name st o sz : run [Push name] (start st o sz) = Ret (named (st ++ [Op name]) o name sz).
Proof. reflexivity. Qed.
Lemma run_array name e l st o sz :
  run (array_of name (e :: l)) (start st o sz)
  = Ret (between (st ++ Op name :: flat_map elem_marks (e :: l)) o name (Z.of_nat (length (e :: l))) sz).
Proof.
  unfold array_of. change (Push name :: flat_map element (e :: l)) with ([Push name] ++ (element e ++ flat_map element l)).
  rewrite run_app, run_name. cbn [obind]. rewrite run_app. unfold named. rewrite run_element by auto. cbn [obind].
  rewrite run_elements. cbn [flat_map length]. rewrite <- !app_assoc. do 2 f_equal. lia.
Qed.
Lemma elem_marks_tree l : flat_map elem_marks l = flat_map marks (map (fun e => El "elem" (map tree (snd e))) l).
Proof. induction l; cbn [flat_map map]; [reflexivity|]. now rewrite IHl. Qed.

Definition closed (st : list mark) (o : list string) (sz : Z) : arr := mkArr st o [] true false false 0 0 sz.
Lemma close_between st o name k sz :
  close_array (between st o name k sz) = if (0 <? sz) && negb (k =? sz) then Halt else Ret (closed (st ++ [Cl name]) o sz).
Proof. reflexivity. Qed.

(** ** Open tags *)
Lemma open_tags_app m1 : forall m2 st, open_tags (m1 ++ m2) st =
  match open_tags m1 st with Some st' => open_tags m2 st' | None => None end.
Proof.
  induction m1 as [|[s|s|b] m1 IH]; intros; cbn [app open_tags]; auto.
  destruct st; [reflexivity|]. destruct (String.eqb s s0); auto.
Qed.
Section node_rect.
  Variable P : node -> Prop.
  Hypothesis HE : forall s l, Forall P l -> P (El s l).
  Hypothesis HW : forall b, P (Words b).
  Fixpoint node_rec2 (i : node) : P i :=
    let go := fix go (l : list node) : Forall P l :=
      match l with [] => Forall_nil _ | j :: l => Forall_cons _ (node_rec2 j) (go l) end in
    match i with El s l => HE s l (go l) | Words b => HW b end.
End node_rect.
Lemma open_tags_node n : forall st, open_tags (marks n) st = Some st.
Proof.
  induction n as [s l IH|b] using node_rec2; intros; [|reflexivity].
  cbn [marks open_tags]. rewrite open_tags_app.
  assert (H : forall st, open_tags (flat_map marks l) st = Some st).
  { induction IH; intros; cbn [flat_map]; [reflexivity|]. rewrite open_tags_app, H. apply IHIH. }
  rewrite H. cbn [open_tags]. now rewrite String.eqb_refl.
Qed.
Lemma open_tags_document l st : open_tags (document l) st = Some st.
Proof.
  unfold document. revert st. induction l; intros; cbn [flat_map]; [reflexivity|].
  rewrite open_tags_app, open_tags_node. apply IHl.
Qed.
(** The converse: marks read with a stack of half-built trees. *)
Fixpoint path (tr : list (string * list node)) (top : list node) : list mark :=
  match tr with
  | [] => document top
  | (s, before) :: tr => path tr before ++ Op s :: document top
  end.
Lemma path_add tr top n : path tr (top ++ [n]) = path tr top ++ marks n.
Proof.
  destruct tr as [|[s b] tr]; cbn [path]; unfold document; rewrite flat_map_app; cbn [flat_map]; rewrite app_nil_r; [reflexivity|].
  now rewrite <- app_assoc.
Qed.
Lemma document_build m : forall tr top, open_tags m (map fst tr) = Some [] ->
  exists l, path tr top ++ m = document l.
Proof.
  induction m as [|[s|s|b] m IH]; intros tr top H; cbn [open_tags] in H.
  - destruct tr; [|discriminate]. exists top. cbn [path]. now rewrite app_nil_r.
  - destruct (IH ((s, top) :: tr) [] H) as [l Hl]. exists l. rewrite <- Hl. cbn [path]. unfold document at 1. cbn [flat_map].
    now rewrite <- app_assoc.
  - destruct tr as [|[t bef] tr]; [discriminate|]. cbn [map fst] in H. destruct (String.eqb_spec s t) as [->|]; [|discriminate].
    destruct (IH tr (bef ++ [El t top]) H) as [l Hl]. exists l. rewrite <- Hl, path_add. cbn [path marks].
    rewrite <- !app_assoc. cbn [app]. now rewrite <- app_assoc.
  - destruct (IH tr (top ++ [Words b]) H) as [l Hl]. exists l. rewrite <- Hl, path_add. cbn [marks]. now rewrite <- app_assoc.
Qed.
Lemma well_formed_iff m : well_formed m <-> open_tags m [] = Some [].
Proof.
  split.
  - intros [l ->]. apply open_tags_document.
  - intros H. destruct (document_build m [] [] H) as [l Hl]. exists l. exact Hl.
Qed.

(** ** No history of the array writer alone crosses tags *)
Definition sound (o : list string) (a : arr) : Prop := outer a = o /\ open_tags (stream a) [] = Some (names a ++ o).
Lemma open_tag_sound o s a b : sound o a -> open_tag s a = Ret b -> sound o b.
Proof.
  intros [Ho H] E. unfold open_tag in E.
  destruct (names a) as [|n ns] eqn:En; [destruct (rooted a); [discriminate|]|]; injection E as <-;
    (split; [exact Ho|]); cbn [stream names]; rewrite open_tags_app, H; reflexivity.
Qed.
Lemma close_tag_sound o a b : sound o a -> close_tag a = Ret b -> sound o b.
Proof.
  intros [Ho H] E. unfold close_tag in E. destruct (names a) as [|n ns]; [discriminate|]. injection E as <-.
  split; [exact Ho|]. cbn [stream names]. rewrite open_tags_app, H. cbn [open_tags app]. now rewrite String.eqb_refl.
Qed.
Lemma obind_ret {A B} (r : out A) (f : A -> out B) b : obind r f = Ret b -> exists a, r = Ret a /\ f a = Ret b.
Proof. destruct r; cbn; intros H; try discriminate. eauto. Qed.
Lemma close_array_sound o a b : sound o a -> close_array a = Ret b -> sound o b.
Proof.
  intros H E. unfold close_array in E. destruct (initP a); [|discriminate]. destruct (context a); [|discriminate].
  cbn [negb] in E. apply obind_ret in E as (a' & E1 & E2). apply (close_tag_sound o) in E1; [|exact H].
  destruct ((0 <? asize a') && negb (written a' =? asize a')); [discriminate|]. injection E2 as <-. exact E1.
Qed.
Lemma exec_sound o c a b : match c with OutPush _ | OutPop => False | _ => True end -> sound o a -> exec c a = Ret b -> sound o b.
Proof.
  intros Hc H E. destruct c; cbn [exec] in E; try contradiction.
  - unfold open_struct in E. destruct (arrayTag a).
    + cbn [negb] in E. destruct (negb (initP a) && negb (written a =? 0)); [discriminate|].
      apply obind_ret in E as (a' & E1 & E2). apply (open_tag_sound o) in E1; [|exact H]. injection E2 as <-. exact E1.
    + cbn [negb] in E. unfold open_array in E. destruct (initP a), (arrayTag a), (context a); try discriminate.
      * apply obind_ret in E as (a' & E1 & E2). apply (open_tag_sound o) in E1; [|exact H]. injection E2 as <-. exact E1.
  - unfold close_struct in E. destruct (initP a); [|discriminate]. cbn [negb] in E. destruct (context a).
    + eapply close_array_sound; eassumption.
    + apply obind_ret in E as (a' & E1 & E2). apply (close_tag_sound o) in E1; [|exact H]. injection E2 as <-. exact E1.
  - eapply open_tag_sound; eassumption.
  - eapply close_tag_sound; eassumption.
  - injection E as <-. destruct H as [Ho H]. split; [exact Ho|]. cbn. rewrite open_tags_app, H. reflexivity.
Qed.
Lemma run_sound o l : only_array l -> forall a b, sound o a -> run l a = Ret b -> sound o b.
Proof.
  induction l as [|c l IH]; intros Hl a b H E; cbn [run] in E.
  - now injection E as <-.
  - apply obind_ret in E as (a' & E1 & E2). refine (IH _ a' b _ E2).
    + intros d Hd. apply Hl. now right.
    + eapply exec_sound; [|exact H|exact E1]. apply Hl. now left.
Qed.
Lemma destroy_sound o a b : sound o a -> destroy a = Ret b -> sound o b.
Proof.
  intros H E. unfold destroy in E. destruct (initP a); [eapply close_array_sound; eassumption|]. now injection E as <-.
Qed.

(** C90: an array written to XML piece by piece.  See ArrWriteModel.v and ArrWriteSpec.v. *)
From Coq Require Import String.
From Coq Require Import List ZArith Bool Lia.
From Verif Require Import XmlModel ArrWriteModel ArrWriteSpec ArrWriteProofs.
Import ListNotations.
Local Open Scope Z_scope.
Local Notation length := List.length.

(** An array of one or more elements, with the size not announced or announced rightly: whatever is on the stream before,
    whatever names the elements are given and whatever they hold, the document gets exactly the tree of the array, each
    element under "elem".  It makes no difference whether the array is popped and the writer then destroyed, or the writer
    just destroyed, as in the manual. *)
Theorem C90_array : forall name l before outer size,
  l <> [] -> size <= 0 \/ size = Z.of_nat (length l) ->
  exists done, obind (run (array_of name l ++ [Pop]) (start before outer size)) destroy = Ret done
    /\ obind (run (array_of name l) (start before outer size)) destroy = Ret done
    /\ stream done = before ++ document [array_tree name l].
Proof.
  intros name [|e l] before outer size Hl Hs; [contradiction|].
  exists (closed (before ++ document [array_tree name (e :: l)]) outer size).
  assert (E : (0 <? size) && negb (Z.of_nat (length (e :: l)) =? size) = false).
  { destruct Hs as [Hs|Hs].
    - replace (0 <? size) with false; [reflexivity|]. symmetry. now apply Z.ltb_ge.
    - rewrite Hs, Z.eqb_refl. now rewrite andb_false_r. }
  assert (F : (before ++ Op name :: flat_map elem_marks (e :: l)) ++ [Cl name] = before ++ document [array_tree name (e :: l)]).
  { unfold document, array_tree. cbn [flat_map marks]. rewrite <- elem_marks_tree.
    rewrite app_nil_r, <- app_assoc. reflexivity. }
  split; [|split; [|reflexivity]].
  - rewrite run_app, run_array. cbn [obind run exec]. unfold close_struct.
    change (initP (between _ _ _ _ _)) with true. change (context (between _ _ _ _ _)) with 0%nat. cbn [negb].
    rewrite close_between, E. cbn [obind]. now rewrite F.
  - rewrite run_array. cbn [obind]. unfold destroy. change (initP (between _ _ _ _ _)) with true. cbv iota.
    rewrite close_between, E. now rewrite F.
Qed.
Print Assumptions C90_array.

(** With another number of elements than announced, pop ends the program, and so does the destructor. *)
Theorem C90_wrong_count : forall name l before outer size,
  l <> [] -> 0 < size -> size <> Z.of_nat (length l) ->
  run (array_of name l ++ [Pop]) (start before outer size) = Halt
  /\ obind (run (array_of name l) (start before outer size)) destroy = Halt.
Proof.
  intros name [|e l] before outer size Hl H0 Hs; [contradiction|].
  assert (E : (0 <? size) && negb (Z.of_nat (length (e :: l)) =? size) = true).
  { rewrite (proj2 (Z.ltb_lt _ _) H0). cbn [andb]. destruct (Z.eqb_spec (Z.of_nat (length (e :: l))) size); [congruence|reflexivity]. }
  split.
  - rewrite run_app, run_array. cbn [obind run exec]. unfold close_struct.
    change (initP (between _ _ _ _ _)) with true. change (context (between _ _ _ _ _)) with 0%nat. cbn [negb].
    rewrite close_between, E. reflexivity.
  - rewrite run_array. cbn [obind]. unfold destroy. change (initP (between _ _ _ _ _)) with true. cbv iota.
    rewrite close_between, E. reflexivity.
Qed.
Print Assumptions C90_wrong_count.

(** Whatever a program does with the array writer, in any order, short of ending: no closing mark ever meets the wrong
    opening mark, the tags open in the document are those of the array writer inside those of the writer beneath, and the
    document is complete if and only if both have none open. *)
Theorem C90_never_crosses : forall l before outer size a,
  only_array l -> open_tags before [] = Some outer ->
  (run l (start before outer size) = Ret a \/ obind (run l (start before outer size)) destroy = Ret a) ->
  open_tags (stream a) [] = Some (names a ++ outer)
  /\ (well_formed (stream a) <-> names a = [] /\ outer = []).
Proof.
  intros l before o size a Hl Hb E.
  assert (S0 : sound o (start before o size)) by (split; [reflexivity|exact Hb]).
  assert (Sa : sound o a).
  { destruct E as [E|E]; [exact (run_sound o l Hl _ _ S0 E)|].
    apply obind_ret in E as (b & E1 & E2). eapply destroy_sound; [|exact E2]. exact (run_sound o l Hl _ _ S0 E1). }
  destruct Sa as [_ Sa]. split; [exact Sa|]. rewrite well_formed_iff, Sa. split.
  - intros H. injection H as H. now apply app_eq_nil in H.
  - intros [H1 H2]. now rewrite H1, H2.
Qed.
Print Assumptions C90_never_crosses.

(** The property fails for an array with no elements: pop ends the program, whatever the announced size, and if the
    writer is destroyed instead the tag of the array stays open and the document is never complete. *)
Theorem C90_empty_refuted : forall name before outer size,
  run (array_of name [] ++ [Pop]) (start before outer size) = Halt
  /\ (open_tags before [] = Some outer ->
      exists a, obind (run (array_of name []) (start before outer size)) destroy = Ret a
        /\ open_tags (stream a) [] = Some (name :: outer)
        /\ ~ well_formed (stream a)).
Proof.
  intros name before outer size. split; [reflexivity|]. intros Hb.
  exists (named (before ++ [Op name]) outer name size). split; [reflexivity|].
  assert (E : open_tags (before ++ [Op name]) [] = Some (name :: outer)) by now rewrite open_tags_app, Hb.
  split; [exact E|]. rewrite well_formed_iff. cbn [named stream]. rewrite E. discriminate.
Qed.
Print Assumptions C90_empty_refuted.

(** ... and for elements that are numbers, strings, complex numbers or arrays written straight into the array, without a
    group around each: none is counted and pop ends the program, whatever the size. *)
Theorem C90_plain_elements_refuted : forall name (l : list (string * list N)) before outer size,
  run (Push name :: flat_map (fun e => [Tag (fst e); Text (snd e); EndTag]) l ++ [Pop]) (start before outer size) = Halt.
Proof.
  intros name l before outer size.
  change (Push name :: flat_map (fun e => [Tag (fst e); Text (snd e); EndTag]) l ++ [Pop])
    with ([Push name] ++ (flat_map (fun e => [Tag (fst e); Text (snd e); EndTag]) l ++ [Pop])).
  rewrite run_app, run_name. cbn [obind]. rewrite run_app. generalize (before ++ [Op name]).
  induction l as [|e l IH]; intros st; [reflexivity|]. cbn [flat_map]. rewrite run_app. cbn [run exec obind].
  unfold open_tag, close_tag, put. cbn -[flat_map run]. rewrite <- !app_assoc. cbn [app]. apply IH.
Qed.
Print Assumptions C90_plain_elements_refuted.

(** ... and when an element is left by an exception or a return: the destructor ends the program, whatever the size and
    whatever has been written. *)
Theorem C90_left_early_refuted : forall name l s items before outer size,
  obind (run (array_of name l ++ Push s :: flat_map commands items) (start before outer size)) destroy = Halt.
Proof.
  intros name l s items before outer size. rewrite run_app. destruct l as [|e l].
  - change (array_of name []) with [Push name]. rewrite run_name. cbn [obind]. unfold named. rewrite open_element by auto. reflexivity.
  - rewrite run_array. cbn [obind]. unfold between. rewrite open_element by auto. reflexivity.
Qed.
Print Assumptions C90_left_early_refuted.

(** ... and when the writer beneath is popped while the array is open, as happens when the writer of the array outlives
    the group that the array belongs to: the closing marks cross and no later writing mends it. *)
Theorem C90_outlived_refuted : forall group name l before later,
  group <> name -> l <> [] -> well_formed before ->
  exists a, run (OutPush group :: array_of name l ++ [OutPop]) (start before [] (-1)) = Ret a
    /\ forall b, destroy a = Ret b -> ~ well_formed (stream b ++ later).
Proof.
  intros group name [|e l] before later Hn Hl Hb; [contradiction|].
  exists (mkArr (((before ++ [Op group]) ++ Op name :: flat_map elem_marks (e :: l)) ++ [Cl group]) [] [name] true true true 0
            (Z.of_nat (length (e :: l))) (-1)).
  split.
  - change (OutPush group :: array_of name (e :: l) ++ [OutPop]) with ([OutPush group] ++ (array_of name (e :: l) ++ [OutPop])).
    rewrite run_app. cbn [run exec obind]. rewrite run_app.
    change (mkArr (stream (start before [] (-1)) ++ [Op group]) _ _ _ _ _ _ _ _) with (start (before ++ [Op group]) [group] (-1)).
    rewrite run_array. reflexivity.
  - assert (D : forall st, open_tags (flat_map elem_marks (e :: l)) st = Some st).
    { intros st. rewrite elem_marks_tree. apply open_tags_document. }
    generalize dependent (flat_map elem_marks (e :: l)). intros m D b E.
    unfold destroy, close_array, close_tag in E. cbn -[Z.of_nat] in E. injection E as <-. cbn [stream].
    rewrite well_formed_iff. apply well_formed_iff in Hb. rewrite <- !app_assoc. rewrite open_tags_app, Hb.
    cbn [app open_tags]. rewrite open_tags_app, D. cbn [app open_tags].
    destruct (String.eqb_spec group name); [contradiction|discriminate].
Qed.
Print Assumptions C90_outlived_refuted.

(** The manual gives push(XMLArrayWriter&) as the way to start an array: it opens a tag without a name. *)
Theorem C90_unnamed_refuted : forall before outer size,
  exists a, run [Push ""] (start before outer size) = Ret a /\ stream a = before ++ [Op ""].
Proof. intros. eexists. split; reflexivity. Qed.
Print Assumptions C90_unnamed_refuted.

(** Three elements, as in the manual, inside a group of the writer beneath. *)
Example C90_array_met :
  let l := [(""%string, [Tagged "foo" [Plain [48%N]]]); (""%string, [Tagged "foo" [Plain [49%N]]]);
            ("x"%string, [Group "g" [Tagged "foo" [Plain [50%N]]]])] in
  l <> [] /\ (3 <= 0 \/ 3 = Z.of_nat (length l))
  /\ document [array_tree "a" l]
     = [Op "a"; Op "elem"; Op "foo"; Tx [48%N]; Cl "foo"; Cl "elem"; Op "elem"; Op "foo"; Tx [49%N]; Cl "foo"; Cl "elem";
        Op "elem"; Op "g"; Op "foo"; Tx [50%N]; Cl "foo"; Cl "g"; Cl "elem"; Cl "a"]%string.
Proof. cbv zeta. split; [intros H; discriminate H|]. split; [right; reflexivity|reflexivity]. Qed.
Example C90_never_crosses_met : exists a,
  run [Push "a"; Push ""; Tag "x"; Pop; EndTag] (start [Op "root"] ["root"] (-1))%string = Ret a
  /\ names a = ["a"]%string /\ open_tags [Op "root"] [] = Some ["root"]%string.
Proof. eexists. split; [lazy; reflexivity|]. split; reflexivity. Qed.

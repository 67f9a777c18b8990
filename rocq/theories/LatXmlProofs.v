From Coq Require Import String List Arith Bool Lia.
From Verif Require Import Base LayoutModel LayoutSpec LayoutProofs LayoutOk LatIoModel LatIoSpec LatIoProofs LatIoOk LatXmlModel LatXmlSpec.
Import ListNotations.
Local Open Scope nat_scope.
Local Notation length := List.length.

Section Words.
  Variable W : Type.
  Notation obj := (obj W). Notation tree := (tree W). Notation writer := (writer W).
  Notation Tag := (Tag W). Notation Txt := (Txt W).

  (** ** The tree that is written *)
  Definition elem_tree (al : list attr) (k : list tree) : tree := Tag "elem" al k.
  Fixpoint content (d : obj) : list tree :=
    match d with
    | Num _ x => [Txt x]
    | Cplx _ a b => [Tag "re" [] (content a); Tag "im" [] (content b)]
    | Vec _ spin n e => [Tag (if spin then "SpinVector"%string else "Vector"%string) [] (map (fun i => elem_tree [("row"%string, [i])] (content (e i))) (seq 0 n))]
    | Mat _ n e => [Tag "Matrix" [] (flat_map (fun i => map (fun j => elem_tree [("row"%string, [i]); ("col"%string, [j])] (content (e i j))) (seq 0 n)) (seq 0 n))]
    | Seed _ e => [Tag "Seed" [] (map (fun i => elem_tree [] (content (e i))) (seq 0 4))]
    end.

  Definition adds (f : writer -> option writer) (l : list tree) : Prop :=
    forall s al k r, f ((s, al, k) :: r) = Some ((s, al, k ++ l) :: r).

  Lemma adds_tagged s al f l : adds f l -> adds (tagged W s al f) [Tag s al l].
  Proof. intros H s' al' k r. unfold tagged. cbn [obind open_tag]. rewrite H. reflexivity. Qed.
  Lemma adds_loop {A} (f : A -> writer -> option writer) g (l : list A) :
    (forall x, In x l -> adds (f x) (g x)) -> adds (loop W f l) (flat_map g l).
  Proof.
    induction l as [|x l IH]; intros H s al k r; cbn [loop flat_map]; [now rewrite app_nil_r|].
    rewrite H by now left. cbn [obind]. rewrite IH by (intros; apply H; now right). now rewrite app_assoc.
  Qed.
  Lemma flat_map_one {A B} (g : A -> B) l : flat_map (fun x => [g x]) l = map g l.
  Proof. induction l; cbn; congruence. Qed.
  Lemma adds_map {A} (f : A -> writer -> option writer) g (l : list A) :
    (forall x, In x l -> adds (f x) [g x]) -> adds (loop W f l) (map g l).
  Proof. intros H. rewrite <- flat_map_one. now apply adds_loop. Qed.

  Lemma put_adds d : adds (put W d) (content d).
  Proof.
    induction d as [x|a IHa b IHb|spin n e IH|n e IH|e IH]; cbn [put content].
    - intros s al k r. reflexivity.
    - intros s al k r. rewrite (adds_tagged "re" [] _ _ IHa). cbn [obind]. rewrite (adds_tagged "im" [] _ _ IHb).
      now rewrite <- app_assoc.
    - apply adds_tagged, adds_map. intros i _. now apply adds_tagged.
    - apply adds_tagged, adds_loop. intros i _. apply adds_map. intros j _. now apply adds_tagged.
    - apply (adds_tagged "Seed" [] _ (map (fun i => elem_tree [] (content (e i))) (seq 0 4))), adds_map.
      intros i _. now apply adds_tagged.
  Qed.

  (** ** Lattices *)
  Lemma coord_attr c : 0 < length c -> get c 0 :: map (get c) (seq 1 (length c - 1)) = c.
  Proof.
    destruct c as [|x c]; cbn [length]; [lia|]. intros _. cbn [get nth]. f_equal. rewrite Nat.sub_succ, Nat.sub_0_r.
    rewrite <- seq_shift, map_map. clear. unfold get. cbn [nth]. induction c as [|y c IH]; [reflexivity|].
    cbn [length seq map nth]. f_equal. rewrite <- seq_shift, map_map. exact IH.
  Qed.

  Definition site_tree (b : build) (F : xfield W) (n : nat) : tree :=
    elem_tree [("site"%string, [n]); ("coord"%string, crt (lay_of b) n)] (content (xvalue W b F (crt (lay_of b) n))).
  Definition document (b : build) (F : xfield W) : tree :=
    Tag "OLattice" [] (map (site_tree b F) (seq 0 (volume (build_size b)))).

  Lemma site_attrs_crt b n : build_ok b -> n < volume (build_size b) ->
    site_attrs n (crt (lay_of b) n) = [("site"%string, [n]); ("coord"%string, crt (lay_of b) n)].
  Proof.
    intros HB H. unfold site_attrs. rewrite coord_attr; [reflexivity|].
    pose proof (crt_in b n HB H) as I. destruct (size_ok b HB) as [A _].
    assert (Q : length (crt (lay_of b) n) = length (build_size b)) by (apply in_lattice_get in I; tauto). lia.
  Qed.

  Lemma sites_add k M L g (F : xfield W) stray sites : let b := Multi g k M L in build_ok b ->
    (forall n, In n sites -> n < volume (build_size b)) -> forall buf,
    adds (put_sites W (par_layout k M L) F stray sites buf) (map (site_tree b F) sites).
  Proof.
    intros b HB. induction sites as [|n sites IH]; intros H buf s al kk r; cbn [put_sites map]; [now rewrite app_nil_r|].
    set (lay := par_layout k M L). set (c := crt lay n).
    set (buf2 := if negb (l_node lay c =? 0) then _ else _).
    assert (E : buf2 0 = Some (xvalue W b F c)).
    { unfold buf2, xvalue. cbn [lay_of b]. fold lay. destruct (l_node lay c =? 0) eqn:Z; cbn [negb].
      - apply Nat.eqb_eq in Z. rewrite Z. reflexivity.
      - cbn [Nat.eqb]. rewrite Nat.eqb_refl. reflexivity. }
    assert (A : adds (tagged W "elem" (site_attrs n c) (fun w1 => obind (buf2 0) (fun d => put W d w1))) [site_tree b F n]).
    { pose proof (site_attrs_crt b n HB (H n (or_introl eq_refl))) as Q. change (lay_of b) with lay in Q. fold c in Q.
      rewrite Q. unfold site_tree, elem_tree. change (lay_of b) with lay. fold c. apply adds_tagged. rewrite E. cbn [obind].
      apply put_adds. }
    rewrite A. cbn [obind]. rewrite IH by (intros m I; apply H; now right). now rewrite <- app_assoc.
  Qed.

  Lemma lattice_adds b F stray : build_ok b -> adds (put_lattice W b F stray) [document b F].
  Proof.
    intros HB. unfold document. destruct b as [k L|g k M L]; cbn [put_lattice].
    - unfold put_single. apply adds_tagged. cbn [l_size scalar_layout]. rewrite vol_volume.
      change (build_size (Single k L)) with L. apply adds_map. intros n I. apply in_seq in I.
      pose proof (site_attrs_crt (Single k L) n HB) as Q. change (build_size (Single k L)) with L in Q.
      change (lay_of (Single k L)) with (scalar_layout k L) in Q.
      rewrite Q by lia. unfold site_tree, elem_tree. change (lay_of (Single k L)) with (scalar_layout k L).
      apply adds_tagged. apply put_adds.
    - unfold put_multi. apply adds_tagged. cbn [l_size par_layout]. rewrite vol_volume.
      change (build_size (Multi g k M L)) with L. apply sites_add; [exact HB|]. intros n I. apply in_seq in I.
      change (build_size (Multi g k M L)) with L. lia.
  Qed.

  (** ** Queries *)
  Lemma filter_one {A B} (P : B -> bool) (g : A -> B) l x : NoDup l -> In x l ->
    (forall y, In y l -> P (g y) = true <-> y = x) -> filter P (map g l) = [g x].
  Proof.
    induction l as [|y l IH]; intros ND I H; [destruct I|]. inversion ND as [|? ? NI ND']; subst. cbn [map filter].
    destruct (P (g y)) eqn:E.
    - assert (y = x) by (apply H; [now left|exact E]). subst y. f_equal.
      destruct (filter P (map g l)) as [|z r] eqn:F; [reflexivity|]. exfalso.
      assert (IN : In z (filter P (map g l))) by (rewrite F; now left). apply filter_In in IN as [IN PZ].
      apply in_map_iff in IN as (u & <- & U). apply H in PZ; [|now right]. now subst.
    - destruct I as [->|I].
      + exfalso. assert (P (g x) = true) by (apply H; [now left|reflexivity]). congruence.
      + apply IH; auto. intros u U. apply H. now right.
  Qed.

  Lemma select_app p q ks : select W (p ++ q) ks = flat_map (select W q) (select W p ks).
  Proof.
    revert ks. induction p as [|x p IH]; intros ks; cbn [app select flat_map]; [now rewrite app_nil_r|].
    induction (matching W x ks) as [|t l IHl]; [reflexivity|]. cbn [flat_map]. rewrite IH, IHl. now rewrite flat_map_app.
  Qed.

  Lemma list_eqb (a b : list nat) : (if list_eq_dec Nat.eq_dec a b then true else false) = true <-> a = b.
  Proof. destruct (list_eq_dec Nat.eq_dec a b); split; congruence. Qed.

  Lemma elem_row i n (e : nat -> list tree) : i < n ->
    filter (fits W (Query "elem" [("row"%string, [i])] None)) (map (fun i => elem_tree [("row"%string, [i])] (e i)) (seq 0 n))
    = [elem_tree [("row"%string, [i])] (e i)].
  Proof.
    intros H. apply (filter_one _ (fun i => elem_tree [("row"%string, [i])] (e i))); [apply seq_NoDup|apply in_seq; lia|].
    intros y _. cbn [fits elem_tree q_name q_attrs]. cbn. rewrite !orb_false_r, !andb_true_r. rewrite list_eqb. split; congruence.
  Qed.

  Lemma flat_map_prod {A B C} (g : A -> B -> C) (l : list A) (m : list B) :
    flat_map (fun i => map (g i) m) l = map (fun p => g (fst p) (snd p)) (list_prod l m).
  Proof. induction l as [|x l IH]; [reflexivity|]. cbn [flat_map list_prod]. rewrite map_app, map_map, IH. reflexivity. Qed.
  Lemma NoDup_prod {A B} (l : list A) (m : list B) : NoDup l -> NoDup m -> NoDup (list_prod l m).
  Proof.
    induction 1 as [|x l NI ND IH]; intros HM; cbn [list_prod]; [constructor|].
    assert (D : NoDup (map (fun y => (x, y)) m)) by (apply NoDup_map_in; [exact HM|congruence]).
    clear ND. revert D. generalize (IH HM). clear IH HM.
    assert (G : forall p, In p (map (fun y => (x, y)) m) -> ~ In p (list_prod l m)).
    { intros p Q Q2. apply in_map_iff in Q as (y & <- & _). apply in_prod_iff in Q2. tauto. }
    revert G. generalize (list_prod l m). induction (map (fun y => (x, y)) m) as [|p q IHq]; intros r G D1 D2; [exact D1|].
    cbn [app]. inversion D2; subst. constructor.
    - rewrite in_app_iff. intros [Q|Q]; [contradiction|]. apply (G p); [now left|exact Q].
    - apply IHq; auto. intros z Z. apply G. now right.
  Qed.

  Lemma elem_at i j n (e : nat -> nat -> list tree) : i < n -> j < n ->
    filter (fits W (Query "elem" [("row"%string, [i]); ("col"%string, [j])] None))
      (flat_map (fun i => map (fun j => elem_tree [("row"%string, [i]); ("col"%string, [j])] (e i j)) (seq 0 n)) (seq 0 n))
    = [elem_tree [("row"%string, [i]); ("col"%string, [j])] (e i j)].
  Proof.
    intros HI HJ. rewrite (flat_map_prod (fun i j => elem_tree [("row"%string, [i]); ("col"%string, [j])] (e i j))).
    rewrite (filter_one _ (fun p => elem_tree [("row"%string, [fst p]); ("col"%string, [snd p])] (e (fst p) (snd p))) _ (i, j)); [reflexivity| | |].
    - apply NoDup_prod; apply seq_NoDup.
    - apply in_prod; apply in_seq; lia.
    - intros [a b] _. cbn [fits elem_tree q_name q_attrs fst snd]. cbn. rewrite !orb_false_r, !andb_true_r.
      rewrite andb_true_iff, !list_eqb. split; [intros [Q1 Q2]; congruence|intros Q; assert (a = i) by congruence; assert (b = j) by congruence; subst; auto].
  Qed.

  Lemma elem_nth i (e : nat -> list tree) : i < 4 ->
    nth_error (filter (fits W (Query "elem" [] (Some i))) (map (fun i => elem_tree [] (e i)) (seq 0 4))) i = Some (elem_tree [] (e i)).
  Proof. intros H. do 4 (destruct i as [|i]; [reflexivity|]). lia. Qed.

  Lemma select_under s q ks : select W [Query s [] None; q] [Tag s [] ks] = map (inside W) (matching W q ks).
  Proof.
    assert (E : matching W (Query s [] None) [Tag s [] ks] = [Tag s [] ks]).
    { unfold matching. cbn [q_nth filter]. unfold fits. cbn [q_name q_attrs forallb]. rewrite String.eqb_refl. reflexivity. }
    cbn [select]. rewrite E. cbn [flat_map inside]. rewrite app_nil_r. apply flat_map_one.
  Qed.

  Lemma select_component p : forall d w, component W d p = Some w -> select W (path p) (content d) = [[Txt w]].
  Proof.
    induction p as [|x p IH]; intros d w H.
    - destruct d as [x|? ?|[] ? ?|? ?|?]; cbn [component] in H; try discriminate. injection H as ->. reflexivity.
    - change (path (x :: p)) with (steps x ++ path p). rewrite select_app.
      assert (G : exists e, select W (steps x) (content d) = [content e] /\ component W e p = Some w).
      { destruct d as [y|a b|[] n e|n e|e], x as [| |i|i|i j|i]; cbn [component] in H; try discriminate.
        - exists a. split; [reflexivity|exact H].
        - exists b. split; [reflexivity|exact H].
        - destruct (Nat.ltb_spec i n) as [L|L]; [|discriminate]. exists (e i). split; [|exact H].
          cbn [steps content]. rewrite select_under. unfold matching. cbn [q_nth]. rewrite (elem_row i n (fun i => content (e i)) L). reflexivity.
        - destruct (Nat.ltb_spec i n) as [L|L]; [|discriminate]. exists (e i). split; [|exact H].
          cbn [steps content]. rewrite select_under. unfold matching. cbn [q_nth]. rewrite (elem_row i n (fun i => content (e i)) L). reflexivity.
        - destruct (Nat.ltb_spec i n) as [L1|]; [|discriminate]. destruct (Nat.ltb_spec j n) as [L2|]; [|discriminate].
          exists (e i j). split; [|exact H].
          cbn [steps content]. rewrite select_under. unfold matching. cbn [q_nth]. rewrite (elem_at i j n (fun i j => content (e i j)) L1 L2). reflexivity.
        - destruct (Nat.ltb_spec i 4) as [L|L]; [|discriminate]. exists (e i). split; [|exact H].
          cbn [steps content]. rewrite select_under. unfold matching. cbn [q_nth]. rewrite (elem_nth i (fun i => content (e i)) L). reflexivity. }
      destruct G as (e & -> & C). cbn [flat_map]. rewrite (IH e w C). reflexivity.
  Qed.

  Lemma select_site b F n : build_ok b -> n < volume (build_size b) ->
    select W (by_coord (crt (lay_of b) n)) [document b F] = [content (xvalue W b F (crt (lay_of b) n))] /\
    select W (by_number n) [document b F] = [content (xvalue W b F (crt (lay_of b) n))].
  Proof.
    intros HB H. unfold by_coord, by_number, document. rewrite !select_under. unfold matching. cbn [q_nth]. split.
    - rewrite (filter_one _ _ _ n); [reflexivity|apply seq_NoDup|apply in_seq; lia|].
      intros y Y. apply in_seq in Y. cbn. rewrite !orb_false_r, !andb_true_r. rewrite list_eqb.
      split; [apply crt_inj; auto; lia|now intros ->].
    - rewrite (filter_one _ _ _ n); [reflexivity|apply seq_NoDup|apply in_seq; lia|].
      intros y Y. cbn. rewrite !orb_false_r, !andb_true_r. rewrite list_eqb. split; congruence.
  Qed.

  Lemma filter_all b F : filter (fits W (Query "elem" [] None)) (map (site_tree b F) (seq 0 (volume (build_size b))))
    = map (site_tree b F) (seq 0 (volume (build_size b))).
  Proof. induction (seq 0 (volume (build_size b))) as [|n l IH]; [reflexivity|]. cbn [map filter]. rewrite IH. reflexivity. Qed.
End Words.

Lemma local_site_bound b c : build_ok b -> in_lattice (build_size b) c ->
  local_site (build_kind b) c (build_size b) < volume (build_size b).
Proof.
  intros HB Hc. destruct (size_ok b HB) as [A B].
  assert (I : In c (file_order (build_kind b) (build_size b))) by now apply file_order_in.
  rewrite <- (crt_order b HB) in I. apply in_map_iff in I as (n & <- & I). apply in_seq in I. unfold crt.
  change (l_kind (lay_of b)) with (build_kind b). change (l_size (lay_of b)) with (build_size b).
  rewrite local_site_crtesn by (auto; lia). lia.
Qed.

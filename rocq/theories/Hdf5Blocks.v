(** Proofs about the model of HDF5 lattice datasets: the sites of a node, transfers of whole datasets. *)
From Coq Require Import List Arith NArith Bool Lia Permutation.
From Verif Require Import Base LayoutModel LayoutSpec LayoutProofs LayoutOk CrcModel IoProofs LatIoModel LatIoSpec
  LatIoProofs LatIoOk IoNodeProofs Hdf5Model Hdf5Spec Hdf5Proofs.
Import ListNotations.
Local Open Scope nat_scope.

(** ** The sites of a node *)
Fixpoint qeq (c S a : list nat) : bool :=
  match c, S, a with
  | x :: c', s :: S', y :: a' => (x / s =? y) && qeq c' S' a'
  | [], [], [] => true
  | _, _, _ => false
  end.
Fixpoint mulv (a S : list nat) : list nat :=
  match a, S with y :: a', s :: S' => (y * s) :: mulv a' S' | _, _ => [] end.
Fixpoint boxed (L S a : list nat) : Prop :=
  match L, S, a with
  | l :: L', s :: S', y :: a' => 0 < s /\ y * s + s <= l /\ boxed L' S' a'
  | [], [], [] => True
  | _, _, _ => False
  end.

Lemma filter_flat_map {A B} (P : B -> bool) (f : A -> list B) l :
  filter P (flat_map f l) = flat_map (fun x => filter P (f x)) l.
Proof. induction l; cbn; [easy|]. now rewrite filter_app, IHl. Qed.

Lemma flat_map_if {A B} (Q : A -> bool) (g : A -> list B) l :
  flat_map (fun c => if Q c then g c else []) l = flat_map g (filter Q l).
Proof. induction l as [|a l IH]; cbn; [easy|]. rewrite IH. now destruct (Q a). Qed.

Lemma filter_seq_div s a l : 0 < s -> a * s + s <= l -> filter (fun x => x / s =? a) (seq 0 l) = seq (a * s) s.
Proof.
  intros Hs Hl. replace l with (a * s + (s + (l - a * s - s))) by lia.
  rewrite !seq_app, !filter_app, filter_none, filter_every, filter_none; [now rewrite app_nil_r| | |]; intros x Hx; apply in_seq in Hx.
  - apply Nat.eqb_neq. intros E. assert (H := Nat.mul_div_le x s). assert (H' := Nat.mul_succ_div_gt x s). nia.
  - apply Nat.eqb_eq. symmetry. apply Nat.div_unique with (x - a * s); lia.
  - apply Nat.eqb_neq. intros E. assert (H := Nat.mul_div_le x s). assert (H' := Nat.mul_succ_div_gt x s). nia.
Qed.

Lemma filter_box L : forall S a, boxed L S a ->
  filter (fun c => qeq c S a) (all_sites L) = map (shift (mulv a S)) (all_sites S).
Proof.
  induction L as [|l L IH]; intros [|s S] [|y a] H; cbn in H; try easy.
  destruct H as (Hs & Hl & H). cbn [all_sites mulv]. rewrite filter_flat_map.
  rewrite flat_map_ext with (g := fun c' => if qeq c' S a then map (fun x => x :: c') (seq (y * s) s) else []).
  - rewrite flat_map_if, IH, flat_map_map_l, map_flat_map by easy. apply flat_map_ext. intros c.
    rewrite map_map. cbn [shift]. rewrite <- (Nat.add_0_r (y * s)) at 1. rewrite <- seq_add_map, map_map.
    apply map_ext. intros x. f_equal. lia.
  - intros c. rewrite filter_map. cbn [qeq]. destruct (qeq c S a) eqn:E.
    + rewrite filter_ext with (g := fun x => x / s =? y) by (intros x; now rewrite andb_true_r). now rewrite filter_seq_div.
    + rewrite filter_none; [easy|]. intros x _. now rewrite andb_false_r.
Qed.

Lemma boxed_get L : forall S a, length S = length L -> length a = length L ->
  (forall i, i < length L -> 0 < get S i /\ get a i * get S i + get S i <= get L i) -> boxed L S a.
Proof.
  induction L as [|l L IH]; intros [|s S] [|y a] HS Ha H; cbn in *; try easy.
  split; [apply (H 0); lia|]. split; [apply (H 0); lia|]. apply IH; try lia. intros i Hi. apply (H (Datatypes.S i)). lia.
Qed.

Lemma qeq_get c : forall S a, length S = length c -> length a = length c ->
  qeq c S a = true <-> forall i, i < length c -> get c i / get S i = get a i.
Proof.
  induction c as [|x c IH]; intros [|s S] [|y a] HS Ha; cbn [length] in *; try lia.
  - cbn. split; [intros _ i Hi; lia|easy].
  - cbn [qeq]. rewrite andb_true_iff, Nat.eqb_eq, IH by lia. split.
    + intros [H0 H] [|i] Hi; [easy|]. cbn. apply H. lia.
    + intros H. split; [apply (H 0); lia|]. intros i Hi. apply (H (Datatypes.S i)). lia.
Qed.

Lemma vmul_mulv a : forall S, length a = length S -> vmul a S = mulv a S.
Proof.
  intros S H. apply get_ext.
  - unfold vmul. rewrite length_map_seq. revert S H. induction a; intros [|s S] H; cbn in *; try lia. rewrite <- IHa; lia.
  - unfold vmul. rewrite length_map_seq. intros i Hi. rewrite get_map_seq by easy.
    revert S H i Hi. induction a as [|y a IH]; intros [|s S] H [|i] Hi; cbn in *; try lia. apply IH; lia.
Qed.

Definition origin (b : build) (q : nat) : list nat := vmul (node_coord b q) (sub_size b).

Lemma multi_facts k M L q : admP k M L -> q < num_nodes M ->
  length (subgrid M L) = length L /\ length (coord_of M q) = length L /\
  forall i, i < length L -> 0 < get (subgrid M L) i /\ get (coord_of M q) i * get (subgrid M L) i + get (subgrid M L) i <= get L i
    /\ get L i = get (mgrid M) i * get (subgrid M L) i.
Proof.
  intros H Hq. destruct H as (_ & H0 & HL & _ & [HG HM] & HE & HD).
  split; [apply length_map_seq|]. rewrite num_nodes_volume in Hq. destruct HM as [_ HM]. destruct (HM q Hq) as [Hc _].
  apply in_lattice_get in Hc. destruct Hc as [Hc1 Hc2]. split; [lia|]. intros i Hi.
  assert (E : get (subgrid M L) i = get L i / get (mgrid M) i) by (unfold subgrid; now rewrite get_map_seq).
  assert (Hd : Nat.divide (get (mgrid M) i) (get L i)).
  { eapply Nat.divide_trans; [|apply HD, Hi]. apply Nat.divide_factor_l. }
  assert (Hg : 0 < get (mgrid M) i) by (apply HG; lia).
  assert (Hl : 0 < get L i) by (apply HL; lia).
  specialize (Hc2 i ltac:(lia)). destruct Hd as [z Hz]. rewrite E, Hz, Nat.div_mul by lia. nia.
Qed.

Lemma node_sites b q : build_ok b -> q < l_nodes (lay_of b) ->
  length (sub_size b) = length (build_size b) /\ length (origin b q) = length (build_size b) /\ positive (sub_size b) /\
  filter (fun c => l_node (lay_of b) c =? q) (all_sites (build_size b)) = map (shift (origin b q)) (all_sites (sub_size b)).
Proof.
  destruct b as [k L|g k M L]; intros H Hq; unfold origin, build_size in *; cbn [l_nodes lay_of l_size l_node sub_size node_coord build_ok scalar_layout par_layout] in *.
  - destruct H as (H0 & HL & _). assert (q = 0) by lia. subst q.
    split; [easy|]. unfold vmul. rewrite length_map_seq, repeat_length. split; [easy|]. split; [easy|].
    rewrite filter_every by easy. symmetry. rewrite <- (map_id (all_sites L)) at 2. apply map_ext_in. intros c Hc.
    apply all_sites_in, in_lattice_length in Hc. clear -Hc.
    assert (E : forall c, length c = length L -> shift (repeat 0 (length L)) c = c).
    { clear. induction L; intros [|x c] H; cbn in *; try lia; [easy|]. now rewrite IHL by lia. }
    rewrite <- (E c Hc) at 2. f_equal. apply get_ext; rewrite ?length_map_seq, ?repeat_length; [easy|]. intros i Hi.
    rewrite get_map_seq by easy. unfold get. now rewrite nth_repeat.
  - destruct (multi_facts k M L q H Hq) as (H1 & H2 & H3).
    split; [easy|]. rewrite vmul_mulv by lia. split.
    { rewrite <- vmul_mulv by lia. unfold vmul. now rewrite length_map_seq. }
    split. { intros i Hi. apply H3. lia. }
    rewrite <- (filter_box L).
    2:{ apply boxed_get; [easy|easy|]. intros i Hi. specialize (H3 i Hi). tauto. }
    apply filter_ext_in. intros c Hc. apply all_sites_in in Hc.
    assert (Hlen := in_lattice_length _ _ Hc). apply eq_true_iff_eq. rewrite qeq_get by lia.
    unfold nodeNumberP. rewrite Nat.eqb_eq. destruct H as (_ & H0 & HL & _ & [HG HM] & HE & HD).
    rewrite num_nodes_volume in Hq. destruct HM as [HM1 HM2].
    set (d := map (fun i => get c i / get (subgrid M L) i) (seq 0 (length L))).
    assert (Hd : in_lattice (mgrid M) d).
    { apply in_lattice_get. split; [unfold d; rewrite length_map_seq; lia|]. intros i Hi.
      unfold d in *. rewrite length_map_seq in Hi || idtac. rewrite get_map_seq by lia.
      apply in_lattice_get in Hc. destruct Hc as [_ Hc]. specialize (Hc i ltac:(lia)). specialize (H3 i ltac:(lia)).
      apply Nat.div_lt_upper_bound; [lia|]. nia. }
    destruct (HM1 d Hd) as [_ E1]. destruct (HM2 q Hq) as [_ E2]. split.
    + intros E i Hi. rewrite <- E, E1. unfold d. now rewrite get_map_seq by lia.
    + intros E. rewrite <- E2. f_equal. apply get_ext; [unfold d; rewrite length_map_seq; lia|].
      intros i Hi. unfold d in *. rewrite length_map_seq in Hi. rewrite get_map_seq by lia. apply E. lia.
Qed.

Lemma site_of b q l : build_ok b -> q < l_nodes (lay_of b) -> in_lattice (sub_size b) l ->
  in_lattice (build_size b) (shift (origin b q) l) /\ l_node (lay_of b) (shift (origin b q) l) = q /\
  length (shift (origin b q) l) = length (build_size b).
Proof.
  intros Hb Hq Hl. destruct (node_sites b q Hb Hq) as (_ & _ & _ & E).
  assert (H : In (shift (origin b q) l) (map (shift (origin b q)) (all_sites (sub_size b)))).
  { apply in_map. now apply all_sites_in. }
  rewrite <- E in H. apply filter_In in H. destruct H as [H1 H2]. apply Nat.eqb_eq in H2. apply all_sites_in in H1.
  split; [easy|]. split; [easy|]. now apply in_lattice_length.
Qed.

Lemma local_of b c : build_ok b -> in_lattice (build_size b) c ->
  l_node (lay_of b) c < l_nodes (lay_of b) /\
  exists l, in_lattice (sub_size b) l /\ c = shift (origin b (l_node (lay_of b) c)) l.
Proof.
  intros Hb Hc. assert (Hq : l_node (lay_of b) c < l_nodes (lay_of b)).
  { destruct (lay_ok b Hb) as (_ & _ & HB & _). apply (HB c Hc). }
  split; [easy|]. destruct (node_sites b _ Hb Hq) as (_ & _ & _ & E).
  assert (H : In c (filter (fun c' => l_node (lay_of b) c' =? l_node (lay_of b) c) (all_sites (build_size b)))).
  { apply filter_In. split; [now apply all_sites_in|]. apply Nat.eqb_refl. }
  rewrite E in H. apply in_map_iff in H. destruct H as (l & Ec & H). exists l. split; [now apply all_sites_in|now symmetry].
Qed.

(** The sites of a node in the order of reordermap. *)
Definition visited (b : build) (q : nat) : list (list nat) :=
  filter (fun c => l_node (lay_of b) c =? q) (file_order (build_kind b) (build_size b)).
Lemma reordermap_visited b q : build_ok b -> reordermap b q = map (l_lin (lay_of b)) (visited b q).
Proof. intros Hb. unfold reordermap, visited. now rewrite vol_volume, crt_order. Qed.

Lemma visited_lex b q : build_ok b -> build_kind b <> CB3D -> q < l_nodes (lay_of b) ->
  visited b q = map (shift (origin b q)) (all_sites (sub_size b)).
Proof.
  intros Hb Hk Hq. unfold visited. rewrite file_order_lex by easy. now destruct (node_sites b q Hb Hq) as (_ & _ & _ & ->).
Qed.

Lemma file_order_perm k L : 0 < length L -> Permutation (file_order k L) (all_sites L).
Proof.
  intros H. apply NoDup_Permutation.
  - rewrite <- map_crtesn by easy. destruct (Nat.eq_dec (volume L) 0) as [E|E]; [rewrite E; constructor|].
    apply NoDup_map_in; [apply seq_NoDup|]. intros x y Hx Hy Exy. apply in_seq in Hx, Hy.
    assert (HP : positive L) by (apply volume_pos_inv; lia).
    rewrite <- (local_site_crtesn k x L), <- (local_site_crtesn k y L) by (easy || lia). now rewrite Exy.
  - apply all_sites_nodup.
  - intros c. rewrite file_order_in, all_sites_in by easy. easy.
Qed.

Lemma Permutation_filter' {A} (P : A -> bool) l l' : Permutation l l' -> Permutation (filter P l) (filter P l').
Proof.
  induction 1; cbn; try easy.
  - destruct (P x); [now constructor|easy].
  - destruct (P x), (P y); try easy. apply perm_swap.
  - now transitivity (filter P l').
Qed.

Lemma visited_facts b q : build_ok b -> q < l_nodes (lay_of b) ->
  length (visited b q) = volume (sub_size b) /\ NoDup (reordermap b q) /\
  forall c, In c (visited b q) <-> in_lattice (build_size b) c /\ l_node (lay_of b) c = q.
Proof.
  intros Hb Hq. destruct (size_ok b Hb) as [H0 HP]. destruct (node_sites b q Hb Hq) as (_ & _ & _ & E).
  assert (HPerm : Permutation (visited b q) (filter (fun c => l_node (lay_of b) c =? q) (all_sites (build_size b)))).
  { apply Permutation_filter', file_order_perm, H0. }
  assert (HI : forall c, In c (visited b q) <-> in_lattice (build_size b) c /\ l_node (lay_of b) c = q).
  { intros c. unfold visited. now rewrite filter_In, file_order_in, Nat.eqb_eq. }
  split; [rewrite (Permutation_length HPerm), E, map_length; apply all_sites_length|].
  split; [|exact HI].
  rewrite reordermap_visited by easy. apply NoDup_map_in.
  - apply (Permutation_NoDup (Permutation_sym HPerm)), NoDup_filter, all_sites_nodup.
  - intros x y Hx Hy Exy. apply HI in Hx, Hy. destruct Hx as [Hx1 Hx2], Hy as [Hy1 Hy2].
    apply (place_inj b); try easy. unfold place. now rewrite Hx2, Hy2, Exy.
Qed.

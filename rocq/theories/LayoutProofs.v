(** Lemmas about the layout model. *)
From Coq Require Import List Arith ZArith Bool Lia Permutation.
From Coq Require Import ZifyBool ZifyNat.
Local Open Scope nat_scope.
From Verif Require Import LayoutModel LayoutSpec.
Import ListNotations.
Ltac Zify.zify_post_hook ::= Z.div_mod_to_equations.

(** ** Vectors *)
Lemma length_upd i v l : length (upd i v l) = length l.
Proof. revert i; induction l as [|x l IH]; intros [|i]; simpl; auto. Qed.

Lemma get_upd i v l j : get (upd i v l) j = if (j =? i) && (i <? length l) then v else get l j.
Proof.
  unfold get. revert i j; induction l as [|x l IH]; intros [|i] [|j]; simpl; auto.
  - rewrite andb_false_r. reflexivity.
  - rewrite IH. reflexivity.
Qed.

Lemma get_upd_eq i v l : i < length l -> get (upd i v l) i = v.
Proof. intros H. rewrite get_upd, Nat.eqb_refl. destruct (Nat.ltb_spec i (length l)); simpl; lia. Qed.

Lemma get_upd_ne i v l j : j <> i -> get (upd i v l) j = get l j.
Proof. intros H. rewrite get_upd. destruct (Nat.eqb_spec j i); simpl; [lia|reflexivity]. Qed.

Lemma get_ext a b : length a = length b -> (forall i, i < length a -> get a i = get b i) -> a = b.
Proof. intros H1 H2. apply (nth_ext a b 0 0); auto. Qed.

Lemma get_map_seq (f : nat -> nat) n i : i < n -> get (map f (seq 0 n)) i = f i.
Proof.
  intros H. unfold get. rewrite (nth_indep _ 0 (f 0)) by (rewrite map_length, seq_length; lia).
  rewrite map_nth, seq_nth by lia. reflexivity.
Qed.

Lemma length_map_seq (f : nat -> nat) n : length (map f (seq 0 n)) = n.
Proof. rewrite map_length, seq_length. reflexivity. Qed.

Lemma get_cons_S x l i : get (x :: l) (S i) = get l i.
Proof. reflexivity. Qed.

Lemma get_overflow l i : length l <= i -> get l i = 0.
Proof. intros; unfold get; apply nth_overflow; auto. Qed.

Lemma in_lattice_get L c :
  in_lattice L c <-> (length c = length L /\ forall i, i < length L -> get c i < get L i).
Proof.
  unfold in_lattice. split.
  - intros H; induction H as [|x l c' L' Hx H IH]; simpl; [split; intros; lia|].
    destruct IH as [IH1 IH2]. split; [lia|]. intros [|i] Hi; [exact Hx|].
    apply IH2; lia.
  - revert c; induction L as [|l L IH]; intros [|x c] [Hl Hg]; simpl in *; try lia; constructor.
    + apply (Hg 0); lia.
    + apply IH. split; [lia|]. intros i Hi. apply (Hg (S i)); lia.
Qed.

Lemma in_lattice_length L c : in_lattice L c -> length c = length L.
Proof. intros H; apply in_lattice_get in H; tauto. Qed.

Lemma vol_volume L : vol L = volume L.
Proof.
  unfold vol. enough (forall a, fold_left Nat.mul L a = a * volume L) as H by (rewrite H; lia).
  induction L as [|l L IH]; intros a; simpl; [lia|]. rewrite IH. lia.
Qed.

Lemma positive_Forall L : positive L <-> Forall (fun l => 0 < l) L.
Proof.
  unfold positive. rewrite Forall_forall. split.
  - intros H x Hx. apply (In_nth _ _ 0) in Hx. destruct Hx as [i [Hi <-]]. apply (H i Hi).
  - intros H i Hi. apply H. apply nth_In; auto.
Qed.

Lemma volume_pos L : positive L -> 0 < volume L.
Proof.
  rewrite positive_Forall. induction 1; simpl; [lia|]. apply Nat.mul_pos_pos; auto.
Qed.

Lemma volume_pos_inv L : 0 < volume L -> positive L.
Proof.
  rewrite positive_Forall. induction L as [|l L IH]; simpl; intros H; constructor.
  - destruct l; simpl in H; lia.
  - apply IH. destruct (volume L); lia.
Qed.

Lemma in_lattice_positive L c : in_lattice L c -> positive L.
Proof. intros H i Hi. apply in_lattice_get in H. destruct H as [_ H]. specialize (H i Hi). lia. Qed.

Lemma fold_sum (f : nat -> nat) l a :
  fold_left (fun s m => s + f m) l a = a + list_sum (map f l).
Proof. revert a; induction l as [|x l IH]; intros a; simpl; [lia|]. rewrite IH. lia. Qed.

Lemma sum_ext (f g : nat -> nat) l : (forall x, In x l -> f x = g x) ->
  list_sum (map f l) = list_sum (map g l).
Proof. intros H. rewrite (map_ext_in f g l H). reflexivity. Qed.

Lemma fold_upd (g : nat -> nat -> nat) a k c :
  let r := fold_left (fun c m => upd m (g m (get c m)) c) (seq a k) c in
  length r = length c /\
  forall i, get r i = if (a <=? i) && (i <? a + k) && (i <? length c) then g i (get c i) else get c i.
Proof.
  revert a c; induction k as [|k IH]; intros a c; simpl.
  - split; auto. intros i.
    destruct (Nat.leb_spec a i), (Nat.ltb_spec i (a+0)); simpl; auto; lia.
  - destruct (IH (S a) (upd a (g a (get c a)) c)) as [H1 H2]. rewrite length_upd in *.
    split; [exact H1|]. intros i. rewrite H2, get_upd, H1 || rewrite H2, get_upd.
    destruct (Nat.leb_spec (S a) i), (Nat.leb_spec a i), (Nat.ltb_spec i (S a + k)),
      (Nat.ltb_spec i (a + S k)), (Nat.ltb_spec i (length c)), (Nat.eqb_spec i a),
      (Nat.ltb_spec a (length c)); simpl; subst; auto; lia.
Qed.

(** ** Mixed radix values along a list of dimensions *)
Fixpoint val (ds L c : list nat) : nat :=
  match ds with [] => 0 | d :: ds' => get c d + get L d * val ds' L c end.
Fixpoint prodd (ds L : list nat) : nat :=
  match ds with [] => 1 | d :: ds' => get L d * prodd ds' L end.

Lemma val_lt ds L c : (forall d, In d ds -> get c d < get L d) -> val ds L c < prodd ds L.
Proof.
  induction ds as [|d ds IH]; intros H; simpl; [lia|].
  assert (get c d < get L d) by (apply H; left; auto).
  assert (val ds L c < prodd ds L) by (apply IH; intros; apply H; right; auto). nia.
Qed.

Lemma val_inj ds L c c' :
  (forall d, In d ds -> get c d < get L d) -> (forall d, In d ds -> get c' d < get L d) ->
  val ds L c = val ds L c' -> forall d, In d ds -> get c d = get c' d.
Proof.
  induction ds as [|d ds IH]; intros H H' E x Hx; simpl in *; [tauto|].
  assert (Hd : get c d < get L d) by auto. assert (Hd' : get c' d < get L d) by auto.
  assert (get c d = get c' d /\ val ds L c = val ds L c') as [E1 E2].
  {
    assert (get c d = get c' d).
    { rewrite <- (Nat.mod_small (get c d) (get L d)), <- (Nat.mod_small (get c' d) (get L d)) by lia.
      rewrite <- (Nat.mod_add (get c d) (val ds L c) (get L d)) by lia.
      rewrite <- (Nat.mod_add (get c' d) (val ds L c') (get L d)) by lia.
      f_equal. lia. }
    split; [assumption|]. nia. }
  destruct Hx as [<-|Hx]; auto.
Qed.

Lemma crt_fold ds L : NoDup ds -> forall p c0,
  (forall d, In d ds -> d < length c0 /\ 0 < get L d) ->
  let r := fold_left (crt_step L) ds (p, c0) in
  length (snd r) = length c0 /\
  (forall i, ~ In i ds -> get (snd r) i = get c0 i) /\
  (forall d, In d ds -> get (snd r) d < get L d) /\
  p = val ds L (snd r) + prodd ds L * fst r.
Proof.
  induction 1 as [|d ds Hnd ND IH]; intros p c0 H; simpl.
  - repeat split; auto; try tauto; lia.
  - destruct (H d (or_introl eq_refl)) as [Hd Hp].
    destruct (IH (p / get L d) (upd d (p mod get L d) c0)) as (H1 & H2 & H3 & H4).
    { intros x Hx. rewrite length_upd. apply H. right; auto. }
    set (r := fold_left (crt_step L) ds (p / get L d, upd d (p mod get L d) c0)) in *.
    rewrite length_upd in H1.
    assert (E : get (snd r) d = p mod get L d).
    { rewrite H2 by auto. apply get_upd_eq; auto. }
    repeat split; auto.
    + intros i Hi. rewrite H2 by tauto. apply get_upd_ne. intros ->. tauto.
    + intros x [<-|Hx]; auto. rewrite E. apply Nat.mod_upper_bound; lia.
    + rewrite E. rewrite (Nat.div_mod p (get L d)) at 1 by lia. nia.
Qed.

(** ** The dimension orders *)
Lemma map_mod_small n k a : a + k <= n -> map (fun i => i mod n) (seq a k) = seq a k.
Proof.
  intros H. rewrite <- (map_id (seq a k)) at 2. apply map_ext_in. intros x Hx.
  apply in_seq in Hx. apply Nat.mod_small. lia.
Qed.

Lemma crt_dims_3d n : 0 < n -> crt_dims CB3D n = (n - 1) :: seq 0 (n - 1).
Proof.
  intros H. unfold crt_dims. destruct n as [|n]; [lia|].
  replace (S n - 1) with n by lia.
  cbn [seq map]. rewrite Nat.mod_small by lia. f_equal.
  rewrite <- (map_mod_small (S n) n 0) by lia.
  assert (forall k a, map (fun i => i mod S n) (seq (a + S n) k) = map (fun i => i mod S n) (seq a k)) as G.
  { induction k as [|k IH]; intros a; [reflexivity|]. cbn [seq map].
    f_equal; [|exact (IH (S a))].
    replace (a + S n) with (a + 1 * S n) by lia. rewrite Nat.mod_add by lia. reflexivity. }
  exact (G n 0).
Qed.

Lemma crt_dims_perm k n : Permutation (crt_dims k n) (seq 0 n).
Proof.
  destruct k; try apply Permutation_refl.
  destruct n as [|n]; [apply Permutation_refl|]. rewrite crt_dims_3d by lia.
  replace (S n - 1) with n by lia. rewrite seq_S. simpl. apply Permutation_cons_append.
Qed.

Lemma crt_dims_NoDup k n : NoDup (crt_dims k n).
Proof. eapply Permutation_NoDup; [symmetry; apply crt_dims_perm|apply seq_NoDup]. Qed.

Lemma crt_dims_in k n d : In d (crt_dims k n) <-> d < n.
Proof.
  split; intros H.
  - apply (Permutation_in _ (crt_dims_perm k n)) in H. apply in_seq in H. lia.
  - apply (Permutation_in _ (Permutation_sym (crt_dims_perm k n))). apply in_seq. lia.
Qed.

Lemma prodd_perm ds ds' L : Permutation ds ds' -> prodd ds L = prodd ds' L.
Proof. induction 1; simpl; lia. Qed.

Lemma prodd_seq_shift l L a k : prodd (seq (S a) k) (l :: L) = prodd (seq a k) L.
Proof. revert a; induction k as [|k IH]; intros a; cbn [seq prodd]; [reflexivity|].
  rewrite get_cons_S, IH. reflexivity. Qed.

Lemma prodd_seq L : prodd (seq 0 (length L)) L = volume L.
Proof.
  induction L as [|l L IH]; [reflexivity|].
  cbn [length seq prodd volume]. rewrite prodd_seq_shift, IH. reflexivity.
Qed.

Lemma prodd_dims k L : prodd (crt_dims k (length L)) L = volume L.
Proof. rewrite (prodd_perm _ _ L (crt_dims_perm k (length L))). apply prodd_seq. Qed.

(** ** local_site as a mixed radix value *)
Lemma local_fold (L c : list nat) k a :
  fold_right (fun mmu order => get L (mmu - 1) * (get c mmu + order)) 0 (seq (S a) k)
  = get L a * val (seq (S a) k) L c.
Proof.
  revert a; induction k as [|k IH]; intros a; cbn [seq fold_right val]; [lia|].
  rewrite IH. replace (S a - 1) with a by lia. reflexivity.
Qed.

Lemma local_site_lex_val k c L : k <> CB3D -> 0 < length L ->
  local_site k c L = val (seq 0 (length L)) L c.
Proof.
  intros Hk Hn.
  assert (fold_left (fun order mmu => get L (mmu - 1) * (get c mmu + order))
            (rev (seq 1 (length L - 1))) 0 + get c 0 = val (seq 0 (length L)) L c) as G.
  { rewrite <- fold_left_rev_right, rev_involutive.
    rewrite (local_fold L c (length L - 1) 0).
    destruct (length L) as [|n]; [lia|]. replace (S n - 1) with n by lia.
    cbn [seq val]. lia. }
  destruct k; try congruence; exact G.
Qed.

Lemma local_site_3d_val c L : 0 < length L ->
  local_site CB3D c L = val (crt_dims CB3D (length L)) L c.
Proof.
  intros Hn. rewrite crt_dims_3d by auto. cbn [val].
  unfold local_site. rewrite <- fold_left_rev_right, rev_involutive.
  remember (length L - 1) as m eqn:Em. clear Em Hn.
  destruct m as [|m]; [cbn [seq fold_right val]; lia|].
  cbn [seq fold_right val]. replace (0 =? 0) with true by reflexivity.
  set (F := fold_right _ 0 (seq 1 m)).
  assert (F = get L 0 * val (seq 1 m) L c) as ->; [|lia].
  unfold F. rewrite <- local_fold.
  assert (forall k a, fold_right
      (fun mmu order : nat => get L (if mmu =? 0 then S m else mmu - 1) * (get c mmu + order)) 0 (seq (S a) k) =
    fold_right (fun mmu order : nat => get L (mmu - 1) * (get c mmu + order)) 0 (seq (S a) k)) as G.
  { induction k as [|k IH]; intros a; cbn [seq fold_right]; [reflexivity|]. rewrite IH. reflexivity. }
  apply G.
Qed.

Lemma local_site_val k c L : 0 < length L ->
  local_site k c L = val (crt_dims k (length L)) L c.
Proof.
  intros H. destruct k; try (apply local_site_lex_val; [discriminate|auto]).
  apply local_site_3d_val; auto.
Qed.

(** ** C01 *)
Lemma crtesn_spec k p L : positive L -> p < volume L ->
  in_lattice L (crtesn k p L) /\ val (crt_dims k (length L)) L (crtesn k p L) = p.
Proof.
  intros HL Hp. unfold crtesn.
  destruct (crt_fold (crt_dims k (length L)) L (crt_dims_NoDup _ _) p (repeat 0 (length L)))
    as (H1 & _ & H3 & H4).
  { intros d Hd. apply crt_dims_in in Hd. rewrite repeat_length. split; auto. }
  set (r := fold_left _ _ _) in *. rewrite repeat_length in H1.
  assert (B : forall d, d < length L -> get (snd r) d < get L d).
  { intros d Hd. apply H3. apply crt_dims_in; auto. }
  split; [apply in_lattice_get; auto|].
  rewrite prodd_dims in H4.
  assert (fst r = 0) by (destruct (fst r); [auto|nia]). nia.
Qed.

Lemma length_crtesn k p L : positive L -> length (crtesn k p L) = length L.
Proof.
  intros HL. unfold crtesn.
  destruct (crt_fold (crt_dims k (length L)) L (crt_dims_NoDup _ _) p (repeat 0 (length L)))
    as (H1 & _).
  { intros d Hd. apply crt_dims_in in Hd. rewrite repeat_length. split; auto. }
  rewrite repeat_length in H1. exact H1.
Qed.

Lemma crtesn_in k p L : positive L -> p < volume L -> in_lattice L (crtesn k p L).
Proof. intros; apply crtesn_spec; auto. Qed.

Lemma local_site_lt k c L : 0 < length L -> in_lattice L c -> local_site k c L < volume L.
Proof.
  intros Hn Hc. rewrite local_site_val by auto. rewrite <- (prodd_dims k L). apply val_lt.
  intros d Hd. apply crt_dims_in in Hd. apply in_lattice_get in Hc. apply Hc; auto.
Qed.

Lemma local_site_crtesn k p L : 0 < length L -> positive L -> p < volume L ->
  local_site k (crtesn k p L) L = p.
Proof. intros. rewrite local_site_val by auto. apply crtesn_spec; auto. Qed.

Lemma crtesn_local_site k c L : 0 < length L -> in_lattice L c ->
  crtesn k (local_site k c L) L = c.
Proof.
  intros Hn Hc. pose proof (in_lattice_positive _ _ Hc) as HL.
  destruct (crtesn_spec k (local_site k c L) L HL (local_site_lt k c L Hn Hc)) as [H1 H2].
  set (c' := crtesn k (local_site k c L) L) in *.
  rewrite local_site_val in H2 by auto.
  apply in_lattice_get in H1. apply in_lattice_get in Hc.
  apply get_ext; [lia|]. intros i Hi.
  apply (val_inj (crt_dims k (length L)) L); auto.
  - intros d Hd. apply crt_dims_in in Hd. apply H1; auto.
  - intros d Hd. apply crt_dims_in in Hd. apply Hc; auto.
  - apply crt_dims_in. lia.
Qed.

(** *** Agreement with the specification's lexicographic number *)
Lemma val_seq_shift l x L c a k : val (seq (S a) k) (l :: L) (x :: c) = val (seq a k) L c.
Proof. revert a; induction k as [|k IH]; intros a; cbn [seq val]; [reflexivity|].
  rewrite !get_cons_S, IH. reflexivity. Qed.

Lemma val_lexnum L : forall c, length c = length L -> val (seq 0 (length L)) L c = lexnum L c.
Proof.
  induction L as [|l L IH]; intros [|x c] H; simpl in H; try lia; [reflexivity|].
  cbn [length seq val lexnum]. rewrite val_seq_shift, IH by lia. reflexivity.
Qed.

Lemma val_agree ds L c L' c' :
  (forall d, In d ds -> get c d = get c' d /\ get L d = get L' d) -> val ds L c = val ds L' c'.
Proof.
  induction ds as [|d ds IH]; intros H; cbn [val]; auto.
  destruct (H d (or_introl eq_refl)) as [-> ->]. rewrite IH; auto. intros; apply H; right; auto.
Qed.

Lemma local_site_lexnum k c L : k <> CB3D -> 0 < length L -> length c = length L ->
  local_site k c L = lexnum L c.
Proof. intros. rewrite local_site_lex_val by auto. apply val_lexnum; auto. Qed.

Lemma get_last l : 0 < length l -> get l (length l - 1) = last l 0.
Proof.
  intros H. destruct (@exists_last _ l) as [l' [x ->]]; [intros ->; simpl in H; lia|].
  rewrite last_last, app_length. unfold get. rewrite app_nth2 by (simpl; lia).
  simpl. replace (length l' + 1 - 1 - length l') with 0 by lia. reflexivity.
Qed.

Lemma get_removelast l i : i < length l - 1 -> get (removelast l) i = get l i.
Proof.
  intros H. destruct (@exists_last _ l) as [l' [x ->]]; [intros ->; simpl in H; lia|].
  rewrite removelast_last. rewrite app_length in H; simpl in H. unfold get. rewrite app_nth1 by lia. reflexivity.
Qed.

Lemma length_removelast (l : list nat) : length (removelast l) = length l - 1.
Proof.
  destruct l as [|y l0] eqn:E; [reflexivity|]. destruct (@exists_last _ l) as [l' [x H]]; [subst; discriminate|].
  rewrite <- E, H, removelast_last, app_length. simpl; lia.
Qed.

Lemma local_site_lexnum_t c L : 0 < length L -> length c = length L ->
  local_site CB3D c L = lexnum_t L c.
Proof.
  intros Hn Hl. rewrite local_site_3d_val, crt_dims_3d by auto. unfold lexnum_t, rot.
  cbn [val lexnum]. rewrite get_last by auto. rewrite <- Hl, get_last by lia. f_equal. f_equal.
  rewrite <- val_lexnum by (rewrite !length_removelast; lia).
  rewrite length_removelast, Hl. apply val_agree.
  intros d Hd. apply in_seq in Hd. split; symmetry; apply get_removelast; lia.
Qed.

(** ** Checkerboarded layouts, common form *)
Lemma land1 x : Nat.land x 1 = x mod 2.
Proof. change 1 with (Nat.ones 1) at 1. rewrite Nat.land_ones. reflexivity. Qed.
Lemma shiftr1 x : Nat.shiftr x 1 = x / 2.
Proof. rewrite Nat.shiftr_div_pow2. reflexivity. Qed.

Definition halve (L : list nat) := upd 0 (get L 0 / 2) L.
Definition psum (a k : nat) (c : list nat) := list_sum (map (get c) (seq a k)).

Definition sc_g k hi L i :=
  let V := volume L / 2 in
  let c := crtesn k (i mod V) (halve L) in
  upd 0 (2 * get c 0 + (i / V + psum 1 (hi - 1) c) mod 2) c.
Definition ls_g k hi L c :=
  local_site k (upd 0 (get c 0 / 2) c) (halve L) + (psum 0 hi c mod 2) * (volume L / 2).

Lemma length_halve L : length (halve L) = length L.
Proof. apply length_upd. Qed.

Lemma get_halve0 L : 0 < length L -> get (halve L) 0 = get L 0 / 2.
Proof. intros; apply get_upd_eq; auto. Qed.
Lemma get_halve L i : 0 < i -> get (halve L) i = get L i.
Proof. intros; apply get_upd_ne; lia. Qed.

Lemma halve_volume L : 0 < length L -> Nat.Even (get L 0) -> volume L = 2 * volume (halve L).
Proof.
  destruct L as [|l L]; cbn [length]; [lia|]. intros _ [m Hm]. change (get (l :: L) 0) with l in Hm.
  change (halve (l :: L)) with (l / 2 :: L). cbn [volume].
  assert (l / 2 = m) as -> by lia. subst l. lia.
Qed.

Lemma halve_positive L : 0 < length L -> Nat.Even (get L 0) -> positive L -> positive (halve L).
Proof.
  intros Hn [m Hm] HL i Hi. rewrite length_halve in Hi. destruct i as [|i].
  - rewrite get_halve0 by auto. specialize (HL 0 Hn). lia.
  - rewrite get_halve by lia. auto.
Qed.

Lemma psum_split k c : 0 < k -> psum 0 k c = get c 0 + psum 1 (k - 1) c.
Proof.
  intros H. unfold psum. destruct k as [|k]; [lia|]. cbn [seq map]. replace (S k - 1) with k by lia. reflexivity.
Qed.

Lemma psum_upd0 a k v c : 0 < a -> psum a k (upd 0 v c) = psum a k c.
Proof. intros H. unfold psum. apply sum_ext. intros x Hx. apply in_seq in Hx. apply get_upd_ne. lia. Qed.

Lemma upd0_upd0 v w c : upd 0 v (upd 0 w c) = upd 0 v c.
Proof. destruct c; reflexivity. Qed.
Lemma upd_same0 c : 0 < length c -> upd 0 (get c 0) c = c.
Proof. destruct c; simpl; [lia|reflexivity]. Qed.

Section CBgeneric.
  Variables (k : layout_kind) (hi : nat) (L : list nat).
  Hypothesis (Hn : 0 < length L) (Hhi : 0 < hi) (Hev : Nat.Even (get L 0)) (HL : positive L).

  Lemma cb_vol : volume L / 2 = volume (halve L).
  Proof. pose proof (halve_volume L Hn Hev). lia. Qed.

  Lemma cb_volpos : 0 < volume (halve L).
  Proof. apply volume_pos, halve_positive; auto. Qed.

  Lemma sc_g_in i : i < volume L -> in_lattice L (sc_g k hi L i).
  Proof.
    intros Hi. unfold sc_g. rewrite cb_vol. pose proof cb_volpos as Hv.
    set (V := volume (halve L)) in *.
    pose proof (crtesn_in k (i mod V) (halve L) (halve_positive L Hn Hev HL)
                  (Nat.mod_upper_bound i V ltac:(lia))) as Hc.
    set (c := crtesn k (i mod V) (halve L)) in *.
    apply in_lattice_get in Hc. rewrite length_halve in Hc. destruct Hc as [Hl Hc].
    apply in_lattice_get. rewrite length_upd. split; [auto|]. intros j Hj.
    destruct j as [|j].
    - rewrite get_upd_eq by lia. specialize (Hc 0 Hn). rewrite get_halve0 in Hc by auto.
      destruct Hev as [m Hm]. pose proof (Nat.mod_upper_bound (i / V + psum 1 (hi - 1) c) 2). lia.
    - rewrite get_upd_ne by lia. specialize (Hc (S j) Hj). rewrite get_halve in Hc by lia. exact Hc.
  Qed.

  Lemma sc_g_ls i : i < volume L -> ls_g k hi L (sc_g k hi L i) = i.
  Proof.
    intros Hi. unfold ls_g, sc_g. rewrite cb_vol. pose proof cb_volpos as Hv.
    rewrite (halve_volume L) in Hi by auto.
    set (V := volume (halve L)) in *.
    pose proof (Nat.mod_upper_bound i V ltac:(lia)) as Hm.
    pose proof (crtesn_in k (i mod V) (halve L) (halve_positive L Hn Hev HL) Hm) as Hc.
    pose proof (local_site_crtesn k (i mod V) (halve L) ltac:(rewrite length_halve; auto)
      (halve_positive L Hn Hev HL) Hm) as Hs.
    set (c := crtesn k (i mod V) (halve L)) in *.
    apply in_lattice_get in Hc. rewrite length_halve in Hc. destruct Hc as [Hl Hc].
    rewrite get_upd_eq by lia. rewrite upd0_upd0.
    pose proof (Nat.mod_upper_bound (i / V + psum 1 (hi - 1) c) 2 ltac:(lia)) as Hb.
    replace ((2 * get c 0 + (i / V + psum 1 (hi - 1) c) mod 2) / 2) with (get c 0) by lia.
    rewrite upd_same0 by lia. rewrite Hs.
    rewrite psum_split by auto. rewrite psum_upd0 by lia. rewrite get_upd_eq by lia.
    assert (i / V < 2) by (apply Nat.div_lt_upper_bound; lia).
    pose proof (Nat.div_mod i V ltac:(lia)) as E.
    clear Hi Hm Hs Hb. generalize dependent (i / V). generalize (i mod V). intros r q Hq E.
    replace ((2 * get c 0 + (q + psum 1 (hi - 1) c) mod 2 + psum 1 (hi - 1) c) mod 2) with q
      by (generalize (psum 1 (hi - 1) c) (get c 0); clear -Hq; intros; lia).
    lia.
  Qed.

  Lemma halved_in c : in_lattice L c -> in_lattice (halve L) (upd 0 (get c 0 / 2) c).
  Proof.
    intros Hc. apply in_lattice_get in Hc. destruct Hc as [Hl Hc]. apply in_lattice_get.
    rewrite length_upd, length_halve. split; [auto|]. intros i Hi. destruct i as [|i].
    - rewrite get_upd_eq, get_halve0 by lia. specialize (Hc 0 Hn). destruct Hev as [m Hm]. lia.
    - rewrite get_upd_ne, get_halve by lia. auto.
  Qed.

  Lemma ls_g_lt c : in_lattice L c -> ls_g k hi L c < volume L.
  Proof.
    intros Hc. unfold ls_g. rewrite cb_vol, (halve_volume L) by auto.
    pose proof (local_site_lt k _ (halve L) ltac:(rewrite length_halve; auto) (halved_in c Hc)).
    pose proof (Nat.mod_upper_bound (psum 0 hi c) 2 ltac:(lia)). nia.
  Qed.

  Lemma ls_g_sc c : in_lattice L c -> sc_g k hi L (ls_g k hi L c) = c.
  Proof.
    intros Hc. unfold ls_g, sc_g. rewrite cb_vol.
    pose proof (local_site_lt k _ (halve L) ltac:(rewrite length_halve; auto) (halved_in c Hc)) as Hlt.
    pose proof (crtesn_local_site k _ (halve L) ltac:(rewrite length_halve; auto) (halved_in c Hc)) as Hs.
    set (x := local_site k (upd 0 (get c 0 / 2) c) (halve L)) in *.
    set (V := volume (halve L)) in *.
    pose proof (in_lattice_length _ _ Hc) as Hl.
    rewrite (Nat.mod_add x _ V) by lia. rewrite (Nat.mod_small x V) by lia. rewrite Hs.
    rewrite (Nat.div_add x _ V) by lia. rewrite (Nat.div_small x V) by lia. rewrite Nat.add_0_l.
    rewrite psum_upd0, upd0_upd0, get_upd_eq by lia.
    rewrite psum_split by auto.
    replace (2 * (get c 0 / 2) + ((get c 0 + psum 1 (hi - 1) c) mod 2 + psum 1 (hi - 1) c) mod 2)
      with (get c 0) by (clear; generalize (get c 0) (psum 1 (hi - 1) c); intros; lia).
    apply upd_same0. lia.
  Qed.

  Lemma ls_g_colour c : in_lattice L c -> ls_g k hi L c / (volume L / 2) = psum 0 hi c mod 2.
  Proof.
    intros Hc. unfold ls_g. rewrite cb_vol.
    pose proof (local_site_lt k _ (halve L) ltac:(rewrite length_halve; auto) (halved_in c Hc)) as Hlt.
    set (x := local_site k (upd 0 (get c 0 / 2) c) (halve L)) in *.
    set (V := volume (halve L)) in *.
    rewrite (Nat.div_add x _ V) by lia. rewrite (Nat.div_small x V) by lia. reflexivity.
  Qed.
End CBgeneric.

Lemma sc_cb2_g L i : positive L -> 0 < length L -> Nat.Even (get L 0) ->
  sc_cb2 L i = sc_g CB2 (length L) L i.
Proof.
  intros HL Hn He. unfold sc_cb2, sc_g. rewrite shiftr1, vol_volume, land1, fold_sum.
  rewrite shiftr1. fold (halve L).
  rewrite length_crtesn, length_halve by (apply halve_positive; auto). reflexivity.
Qed.
Lemma ls_cb2_g L c : length c = length L -> ls_cb2 L c = ls_g CB2 (length L) L c.
Proof.
  intros Hl. unfold ls_cb2, ls_g. rewrite !shiftr1, vol_volume, land1, fold_sum, Hl. reflexivity.
Qed.
Lemma sc_cb3d_g L i : positive L -> 0 < length L -> Nat.Even (get L 0) ->
  sc_cb3d L i = sc_g CB3D (length L - 1) L i.
Proof.
  intros HL Hn He. unfold sc_cb3d, sc_g. rewrite vol_volume, land1, fold_sum.
  fold (halve L).
  rewrite length_crtesn, length_halve by (apply halve_positive; auto). reflexivity.
Qed.
Lemma ls_cb3d_g L c : length c = length L -> ls_cb3d L c = ls_g CB3D (length L - 1) L c.
Proof.
  intros Hl. unfold ls_cb3d, ls_g. rewrite vol_volume, land1, fold_sum, Hl. reflexivity.
Qed.

Lemma psum_coord_sum hi c : hi <= length c -> psum 0 hi c = coord_sum hi c.
Proof.
  revert hi. unfold psum, coord_sum. induction c as [|x c IH]; intros [|hi] H; simpl in H; try lia; try reflexivity.
  cbn [seq map firstn]. rewrite <- seq_shift, map_map.
  change (list_sum (x :: firstn hi c)) with (x + list_sum (firstn hi c)).
  rewrite <- (IH hi) by lia. reflexivity.
Qed.

(** ** The 32-style layout *)
Definition bit (s m : nat) : nat := (s / 2 ^ m) mod 2.

Lemma bit_testbit s m : bit s m = Nat.b2n (Nat.testbit s m).
Proof. unfold bit. symmetry. apply Nat.testbit_spec'. Qed.
Lemma bit_lt s m : bit s m < 2.
Proof. apply Nat.mod_upper_bound; lia. Qed.

Lemma land_bit s m : Nat.shiftr (Nat.land s (Nat.shiftl 1 m)) m = bit s m.
Proof.
  rewrite bit_testbit. apply Nat.bits_inj. intros i.
  rewrite Nat.shiftr_spec', Nat.land_spec, Nat.shiftl_1_l, Nat.pow2_bits_eqb.
  destruct i as [|i].
  - rewrite Nat.add_0_l, Nat.eqb_refl, andb_true_r. destruct (Nat.testbit s m); reflexivity.
  - destruct (Nat.eqb_spec m (S i + m)) as [E|E]; [lia|]. rewrite andb_false_r.
    destruct (Nat.testbit s m); simpl Nat.b2n; [|now rewrite Nat.bits_0].
    change 1 with (2 ^ 0). rewrite Nat.pow2_bits_eqb. reflexivity.
Qed.

Lemma land_bit2 s n : 0 < n -> Nat.shiftr (Nat.land s (Nat.shiftl 1 n)) (n - 1) = 2 * bit s n.
Proof.
  intros Hn. rewrite <- (land_bit s n). destruct n as [|n]; [lia|]. replace (S n - 1) with n by lia.
  rewrite !Nat.shiftr_div_pow2. set (z := Nat.land _ _).
  assert (z mod 2 ^ S n = 0) as Hz.
  { unfold z. rewrite <- Nat.land_ones. apply Nat.bits_inj. intros i.
    rewrite !Nat.land_spec, Nat.shiftl_1_l, Nat.pow2_bits_eqb, Nat.bits_0.
    destruct (Nat.eqb_spec (S n) i) as [<-|E]; [|now rewrite andb_false_r].
    rewrite Nat.ones_spec_high by lia. now rewrite andb_false_r. }
  assert (2 ^ n <> 0) by (apply Nat.pow_nonzero; lia).
  apply Nat.mod_divides in Hz; [|apply Nat.pow_nonzero; lia]. destruct Hz as [w ->].
  rewrite (Nat.mul_comm (2 ^ S n)), Nat.div_mul by (apply Nat.pow_nonzero; lia).
  rewrite Nat.pow_succ_r by lia. replace (w * (2 * 2 ^ n)) with (2 * w * 2 ^ n) by lia.
  apply Nat.div_mul; auto.
Qed.

Lemma lxor_even_bit a b : b < 2 -> Nat.lxor (2 * a) b = 2 * a + b.
Proof.
  intros Hb. destruct b as [|[|b]]; [now rewrite Nat.lxor_0_r, Nat.add_0_r| |lia].
  apply Nat.bits_inj. intros i. rewrite Nat.lxor_spec.
  destruct i as [|i].
  - rewrite Nat.testbit_even_0, Nat.testbit_odd_0. reflexivity.
  - rewrite Nat.testbit_even_succ, Nat.testbit_odd_succ by lia.
    assert (Nat.testbit 1 (S i) = false) as -> by (change 1 with (2 ^ 0); rewrite Nat.pow2_bits_eqb; reflexivity).
    now rewrite xorb_false_r.
Qed.

Lemma lxor_4 a b c : b < 2 -> c < 2 -> Nat.lxor (4 * a + b) (2 * c) = 4 * a + 2 * c + b.
Proof.
  intros Hb Hc.
  replace (4 * a + b) with (2 * (2 * a) + b) by lia. rewrite <- lxor_even_bit by auto.
  rewrite Nat.lxor_assoc, (Nat.lxor_comm b), <- Nat.lxor_assoc.
  assert (Nat.lxor (2 * (2 * a)) (2 * c) = 2 * (2 * a + c)) as ->.
  { rewrite <- lxor_even_bit by auto.
    apply Nat.bits_inj. intros i. rewrite Nat.lxor_spec. destruct i as [|i].
    - now rewrite !Nat.testbit_even_0.
    - rewrite !Nat.testbit_even_succ by lia. now rewrite Nat.lxor_spec. }
  rewrite lxor_even_bit by auto. lia.
Qed.

Lemma bit_lxor_shift s cb n m : cb < 2 ->
  bit (Nat.lxor s (Nat.shiftl cb n)) m = if m =? n then (bit s m + cb) mod 2 else bit s m.
Proof.
  intros Hcb. rewrite !bit_testbit, Nat.lxor_spec.
  destruct cb as [|[|cb]]; [| |lia].
  - rewrite Nat.shiftl_0_l, Nat.bits_0, xorb_false_r.
    destruct (m =? n), (Nat.testbit s m); reflexivity.
  - rewrite Nat.shiftl_1_l, Nat.pow2_bits_eqb. rewrite Nat.eqb_sym.
    destruct (m =? n), (Nat.testbit s m); reflexivity.
Qed.

Lemma parity_bits_lt c : parity_bits c < 2 ^ length c.
Proof.
  induction c as [|x c IH]; cbn [parity_bits length Nat.pow]; [lia|].
  pose proof (Nat.mod_upper_bound x 2 ltac:(lia)). lia.
Qed.

Lemma bit_parity_bits c : forall m, m < length c -> bit (parity_bits c) m = get c m mod 2.
Proof.
  induction c as [|x c IH]; intros m Hm; simpl in Hm; [lia|]. destruct m as [|m].
  - unfold bit. cbn [parity_bits Nat.pow]. unfold get; cbn [nth]. rewrite Nat.div_1_r. lia.
  - rewrite get_cons_S, <- IH by lia. unfold bit. cbn [parity_bits].
    rewrite Nat.pow_succ_r by lia. rewrite <- Nat.div_div by (try apply Nat.pow_nonzero; lia).
    do 2 f_equal. pose proof (Nat.mod_upper_bound x 2). lia.
Qed.

Lemma parity_bits_bits n : forall s, s < 2 ^ n -> forall c, length c = n ->
  (forall m, m < n -> get c m mod 2 = bit s m) -> parity_bits c = s.
Proof.
  induction n as [|n IH]; intros s Hs c Hc H.
  - destruct c; [|discriminate]. simpl in *; lia.
  - destruct c as [|x c]; [discriminate|]. cbn [parity_bits].
    rewrite (IH (s / 2)).
    + assert (x mod 2 = s mod 2) as ->.
      { specialize (H 0 ltac:(lia)). unfold bit, get in H; cbn [nth Nat.pow] in H.
        rewrite Nat.div_1_r in H. exact H. }
      pose proof (Nat.div_mod s 2). lia.
    + rewrite Nat.pow_succ_r in Hs by lia. lia.
    + simpl in Hc; lia.
    + intros m Hm. specialize (H (S m) ltac:(lia)). rewrite get_cons_S in H. rewrite H.
      unfold bit. rewrite Nat.pow_succ_r by lia. rewrite <- Nat.div_div by (try apply Nat.pow_nonzero; lia).
      reflexivity.
Qed.

Lemma fold_parity_bits c :
  fold_right (fun m s => 2 * s + get c m mod 2) 0 (seq 0 (length c)) = parity_bits c.
Proof.
  induction c as [|x c IH]; [reflexivity|].
  cbn [length seq fold_right parity_bits]. rewrite <- IH. unfold get at 2; cbn [nth].
  assert (forall k a, fold_right (fun m s => 2 * s + get (x :: c) m mod 2) 0 (seq (S a) k) =
                      fold_right (fun m s => 2 * s + get c m mod 2) 0 (seq a k)) as G.
  { induction k as [|k IHk]; intros a; cbn [seq fold_right]; [reflexivity|].
    rewrite IHk, get_cons_S. reflexivity. }
  rewrite G. lia.
Qed.

Lemma length_cb32 L : length (cb32_nrow L) = length L.
Proof. apply length_map_seq. Qed.
Lemma get_cb32_0 L : 0 < length L -> get (cb32_nrow L) 0 = get L 0 / 4.
Proof. intros H. unfold cb32_nrow. rewrite get_map_seq by auto. cbn [Nat.eqb].
  rewrite Nat.shiftr_div_pow2. reflexivity. Qed.
Lemma get_cb32 L i : 0 < i < length L -> get (cb32_nrow L) i = get L i / 2.
Proof. intros H. unfold cb32_nrow. rewrite get_map_seq by lia.
  destruct (Nat.eqb_spec i 0); [lia|]. apply shiftr1. Qed.

Lemma prodd_double L L' ds : (forall i, In i ds -> get L i = 2 * get L' i) ->
  prodd ds L = 2 ^ length ds * prodd ds L'.
Proof.
  induction ds as [|d ds IH]; intros H; simpl; [lia|]. rewrite IH by (intros; apply H; right; auto).
  rewrite H by (left; auto). lia.
Qed.

Lemma cb32_volume L : 0 < length L -> admissible32 L ->
  volume L = 2 ^ (length L + 1) * volume (cb32_nrow L).
Proof.
  intros Hn [H0 H]. rewrite <- !prodd_seq, length_cb32.
  destruct (length L) as [|n] eqn:En; [lia|]. cbn [seq prodd].
  rewrite get_cb32_0 by lia. rewrite (prodd_double L (cb32_nrow L)).
  2:{ intros i Hi. apply in_seq in Hi. rewrite get_cb32 by lia. destruct (H i ltac:(lia)) as [m Hm]. lia. }
  rewrite seq_length. destruct H0 as [m Hm].
  assert (get L 0 / 4 = m) as -> by lia. rewrite Hm.
  replace (S n + 1) with (S (S n)) by lia. rewrite !Nat.pow_succ_r by lia. lia.
Qed.

Lemma cb32_positive L : 0 < length L -> admissible32 L -> positive L -> positive (cb32_nrow L).
Proof.
  intros Hn [H0 H] HL i Hi. rewrite length_cb32 in Hi. destruct i as [|i].
  - rewrite get_cb32_0 by auto. specialize (HL 0 Hn). destruct H0 as [m Hm]. lia.
  - rewrite get_cb32 by lia. specialize (HL (S i) Hi). destruct (H (S i) ltac:(lia)) as [m Hm]. lia.
Qed.

Section CB32.
  Variable L : list nat.
  Hypothesis (Hn : 0 < length L) (Hadm : admissible32 L) (HL : positive L).
  Let n := length L.
  Let V := volume (cb32_nrow L).

  Lemma cb32_vcb : Nat.shiftr (vol L) (n + 1) = V.
  Proof.
    rewrite Nat.shiftr_div_pow2, vol_volume, cb32_volume by auto.
    fold n V. rewrite Nat.mul_comm, Nat.div_mul; [auto|apply Nat.pow_nonzero; lia].
  Qed.

  Lemma cb32_Vpos : 0 < V.
  Proof. apply volume_pos, cb32_positive; auto. Qed.

  (* the coordinates computed by siteCoords, in closed form *)
  Definition par32 (c : list nat) := psum 1 (n - 1) c mod 2.
  Definition top32 (i : nat) (c : list nat) := (bit (i / V) n + par32 c) mod 2.

  Lemma sc_cb32_get i : let c := crtesn CB32 (i mod V) (cb32_nrow L) in
    length (sc_cb32 L i) = n /\
    get (sc_cb32 L i) 0 = 4 * get c 0 + 2 * top32 i c + bit (i / V) 0 /\
    forall m, 0 < m < n -> get (sc_cb32 L i) m = 2 * get c m + bit (i / V) m.
  Proof.
    intros c. unfold sc_cb32. fold n. rewrite cb32_vcb. fold c.
    assert (Hlc : length c = n).
    { unfold c. rewrite length_crtesn by (apply cb32_positive; auto). apply length_cb32. }
    rewrite fold_sum, land1, Nat.add_0_l. fold (psum 1 (n - 1) c). fold (par32 c).
    assert (Hp : par32 c < 2) by (apply Nat.mod_upper_bound; lia).
    set (c1 := upd 0 (Nat.shiftl (get c 0) 2) c).
    pose proof (fold_upd (fun _ x => Nat.shiftl x 1) 1 (n - 1) c1) as [Hl2 Hg2].
    set (c2 := fold_left _ (seq 1 (n - 1)) c1) in *.
    set (s := Nat.lxor (i / V) (Nat.shiftl (par32 c) n)).
    pose proof (fold_upd (fun m x => Nat.lxor x (Nat.shiftr (Nat.land s (Nat.shiftl 1 m)) m)) 0 n c2) as [Hl3 Hg3].
    set (c3 := fold_left _ (seq 0 n) c2) in *.
    assert (length c1 = n) as Hl1 by (unfold c1; rewrite length_upd; auto).
    assert (length c2 = n) by congruence. assert (length c3 = n) by congruence.
    assert (Hs : forall m, m < n -> bit s m = bit (i / V) m).
    { intros m Hm. unfold s. rewrite bit_lxor_shift by auto. destruct (Nat.eqb_spec m n); [lia|auto]. }
    assert (Hsn : bit s n = top32 i c).
    { unfold s. rewrite bit_lxor_shift, Nat.eqb_refl by auto. reflexivity. }
    assert (E3 : forall m, m < n -> get c3 m = Nat.lxor (get c2 m) (bit (i / V) m)).
    { intros m Hm. rewrite Hg3, H. destruct (Nat.leb_spec 0 m), (Nat.ltb_spec m (0 + n)), (Nat.ltb_spec m n); try lia.
      simpl. rewrite land_bit, Hs by auto. reflexivity. }
    split; [|split].
    - rewrite length_upd. auto.
    - rewrite get_upd_eq by lia. rewrite E3 by lia. rewrite Hg2, Hl1.
      cbn [Nat.leb andb]. unfold c1 at 1. rewrite get_upd_eq by lia.
      rewrite Nat.shiftl_mul_pow2. replace (get c 0 * 2 ^ 2) with (2 * (2 * get c 0)) by (simpl; lia).
      rewrite lxor_even_bit by apply bit_lt. rewrite land_bit2 by auto. rewrite Hsn.
      replace (2 * (2 * get c 0) + bit (i / V) 0) with (4 * get c 0 + bit (i / V) 0) by lia.
      apply lxor_4; [apply bit_lt|apply Nat.mod_upper_bound; lia].
    - intros m Hm. rewrite get_upd_ne by lia. rewrite E3 by lia. rewrite Hg2, Hl1.
      destruct (Nat.leb_spec 1 m), (Nat.ltb_spec m (1 + (n - 1))), (Nat.ltb_spec m n); try lia. simpl andb. cbv iota.
      unfold c1. rewrite get_upd_ne by lia. rewrite Nat.shiftl_mul_pow2.
      replace (get c m * 2 ^ 1) with (2 * get c m) by (simpl; lia).
      apply lxor_even_bit, bit_lt.
  Qed.

  Lemma sc_cb32_in i : i < volume L -> in_lattice L (sc_cb32 L i).
  Proof.
    intros Hi. pose proof (sc_cb32_get i) as (Hl & H0 & Hm). pose proof cb32_Vpos as HV.
    pose proof (crtesn_in CB32 (i mod V) (cb32_nrow L) (cb32_positive L Hn Hadm HL)
                  (Nat.mod_upper_bound i V ltac:(lia))) as Hc.
    set (c := crtesn CB32 (i mod V) (cb32_nrow L)) in *.
    apply in_lattice_get in Hc. rewrite length_cb32 in Hc. destruct Hc as [Hlc Hc].
    apply in_lattice_get. split; [auto|]. intros m Hlt. destruct Hadm as [D0 D].
    destruct m as [|m].
    - rewrite H0. specialize (Hc 0 Hn). rewrite get_cb32_0 in Hc by auto.
      pose proof (bit_lt (i / V) 0). assert (top32 i c < 2) by (apply Nat.mod_upper_bound; lia).
      destruct D0 as [q Hq]. lia.
    - rewrite Hm by (fold n in Hlt; lia). specialize (Hc (S m) Hlt). rewrite get_cb32 in Hc by lia.
      pose proof (bit_lt (i / V) (S m)). destruct (D (S m) ltac:(lia)) as [q Hq]. lia.
  Qed.

  Definition cc32 (c : list nat) : list nat :=
    map (fun i => if i =? 0 then get c 0 / 4 else get c i / 2) (seq 0 n).

  Lemma ls_cb32_eq c : length c = n ->
    ls_cb32 L c = local_site CB32 (cc32 c) (cb32_nrow L) + colour32 c * V.
  Proof.
    intros Hc. unfold ls_cb32. fold n. rewrite cb32_vcb. f_equal; [f_equal|f_equal].
    - unfold cc32. apply map_ext. intros m. rewrite shiftr1, Nat.shiftr_div_pow2. reflexivity.
    - unfold colour32. rewrite Hc. f_equal.
      + rewrite <- fold_parity_bits, Hc.
        rewrite <- fold_left_rev_right, rev_involutive.
        assert (n = S (n - 1)) as En by (unfold n; lia). rewrite En at 3. rewrite seq_S, fold_right_app.
        cbn [fold_right]. rewrite Nat.add_0_l, land1.
        replace (2 * 0 + get c (n - 1) mod 2) with (get c (n - 1) mod 2) by lia.
        induction (seq 0 (n - 1)) as [|m l IH]; cbn [fold_right]; [reflexivity|].
        rewrite IH, land1, Nat.shiftl_mul_pow2. simpl (2 ^ 1). lia.
      + rewrite land1, Nat.shiftl_mul_pow2, (Nat.mul_comm _ (2 ^ n)).
        do 2 f_equal. rewrite fold_sum, Nat.add_0_l. f_equal.
        rewrite <- Hc. clear. 
        assert (forall k a, map (fun m => Nat.shiftr (get c m) 1) (seq a k) = map (fun x => x / 2) (map (get c) (seq a k))) as G.
        { intros k a. rewrite map_map. apply map_ext. intros. apply shiftr1. }
        rewrite G. f_equal. clear G. induction c as [|x c IH]; [reflexivity|].
        cbn [length seq map]. f_equal. rewrite <- seq_shift, map_map. exact IH.
  Qed.

  Lemma cc32_in c : in_lattice L c -> in_lattice (cb32_nrow L) (cc32 c).
  Proof.
    intros Hc. apply in_lattice_get in Hc. destruct Hc as [Hl Hc]. apply in_lattice_get.
    rewrite length_cb32. unfold cc32. split; [apply length_map_seq|]. intros m Hm. fold n in Hm.
    rewrite get_map_seq by auto. destruct Hadm as [D0 D].
    destruct (Nat.eqb_spec m 0) as [->|Hne].
    - rewrite get_cb32_0 by auto. specialize (Hc 0 Hn). destruct D0 as [q Hq]. lia.
    - rewrite get_cb32 by (fold n; lia). specialize (Hc m Hm). destruct (D m ltac:(fold n; lia)) as [q Hq]. lia.
  Qed.

  Lemma colour32_lt c : length c = n -> colour32 c < 2 ^ (n + 1).
  Proof.
    intros Hc. unfold colour32. pose proof (parity_bits_lt c). rewrite Hc in *.
    rewrite Nat.add_1_r, Nat.pow_succ_r by lia.
    pose proof (Nat.mod_upper_bound (list_sum (map (fun x => x / 2) c)) 2 ltac:(lia)). nia.
  Qed.

  Lemma sum_half_split c : length c = n ->
    list_sum (map (fun x => x / 2) c) = get c 0 / 2 + list_sum (map (fun m => get c m / 2) (seq 1 (n - 1))).
  Proof.
    intros Hc. destruct c as [|x c]; [unfold n in Hc; simpl in Hc; lia|].
    simpl in Hc. rewrite <- Hc. replace (S (length c) - 1) with (length c) by lia.
    cbn [map]. unfold get at 1; cbn [nth]. unfold list_sum. cbn [fold_right]. f_equal. f_equal.
    rewrite <- seq_shift, map_map. clear Hc. induction c as [|y c IH]; [reflexivity|].
    cbn [map length seq]. f_equal. rewrite <- seq_shift, map_map. exact IH.
  Qed.

  Lemma ls_cb32_sc i : i < volume L -> ls_cb32 L (sc_cb32 L i) = i.
  Proof.
    intros Hi. pose proof (sc_cb32_get i) as (Hl & H0 & Hm). pose proof cb32_Vpos as HV.
    pose proof (Nat.mod_upper_bound i V ltac:(lia)) as Hmod.
    pose proof (crtesn_in CB32 (i mod V) (cb32_nrow L) (cb32_positive L Hn Hadm HL) Hmod) as Hc.
    pose proof (local_site_crtesn CB32 (i mod V) (cb32_nrow L) ltac:(rewrite length_cb32; auto)
      (cb32_positive L Hn Hadm HL) Hmod) as Hls.
    set (c := crtesn CB32 (i mod V) (cb32_nrow L)) in *.
    set (r := sc_cb32 L i) in *.
    pose proof (in_lattice_length _ _ Hc) as Hlc. rewrite length_cb32 in Hlc. fold n in Hlc.
    rewrite ls_cb32_eq by auto.
    assert (bit (i / V) 0 < 2) by apply bit_lt. assert (top32 i c < 2) by (apply Nat.mod_upper_bound; lia).
    assert (cc32 r = c) as ->.
    { apply get_ext; [unfold cc32; rewrite length_map_seq; auto|].
      unfold cc32 at 1. rewrite length_map_seq. intros m Hlt. unfold cc32. rewrite get_map_seq by auto.
      destruct (Nat.eqb_spec m 0) as [->|Hne]; [lia|]. rewrite Hm by lia. pose proof (bit_lt (i / V) m). lia. }
    rewrite Hls.
    assert (Hq : i / V < 2 ^ (n + 1)).
    { apply Nat.div_lt_upper_bound; [lia|]. rewrite cb32_volume in Hi by auto. fold n V in Hi. lia. }
    assert (colour32 r = i / V) as ->; [|rewrite (Nat.div_mod i V) at 3 by lia; lia].
    unfold colour32. rewrite Hl.
    assert (parity_bits r = (i / V) mod 2 ^ n) as ->.
    { apply (parity_bits_bits n); auto.
      - apply Nat.mod_upper_bound, Nat.pow_nonzero; lia.
      - intros m Hlt. rewrite (bit_testbit (_ mod _)), Nat.mod_pow2_bits_low, <- bit_testbit by lia.
        pose proof (bit_lt (i / V) m). destruct m as [|m]; [rewrite H0; lia|]. rewrite Hm by lia. lia. }
    assert (list_sum (map (fun x => x / 2) r) mod 2 = bit (i / V) n) as ->.
    { rewrite sum_half_split by auto.
      rewrite (sum_ext (fun m => get r m / 2) (get c)).
      2:{ intros m Hin. apply in_seq in Hin. rewrite Hm by lia. pose proof (bit_lt (i / V) m). lia. }
      fold (psum 1 (n - 1) c).
      assert (get r 0 / 2 = 2 * get c 0 + top32 i c) as -> by lia.
      unfold top32, par32. pose proof (bit_lt (i / V) n).
      generalize dependent (bit (i / V) n). generalize (psum 1 (n - 1) c) (get c 0). clear. intros; lia. }
    unfold bit. rewrite Nat.add_1_r, Nat.pow_succ_r in Hq by lia.
    assert (i / V / 2 ^ n < 2) by (apply Nat.div_lt_upper_bound; [apply Nat.pow_nonzero; lia|lia]).
    rewrite (Nat.mod_small (i / V / 2 ^ n) 2) by auto.
    rewrite (Nat.div_mod (i / V) (2 ^ n)) at 3 by (apply Nat.pow_nonzero; lia). lia.
  Qed.

  Lemma ls_cb32_lt c : in_lattice L c -> ls_cb32 L c < volume L.
  Proof.
    intros Hc. pose proof (in_lattice_length _ _ Hc) as Hl. fold n in Hl.
    rewrite ls_cb32_eq by auto. rewrite cb32_volume by auto. fold n V.
    pose proof (local_site_lt CB32 _ (cb32_nrow L) ltac:(rewrite length_cb32; auto) (cc32_in c Hc)) as H.
    fold V in H. pose proof (colour32_lt c Hl). nia.
  Qed.

  Lemma ls_cb32_colour c : in_lattice L c -> ls_cb32 L c / V = colour32 c.
  Proof.
    intros Hc. pose proof (in_lattice_length _ _ Hc) as Hl. fold n in Hl.
    rewrite ls_cb32_eq by auto.
    pose proof (local_site_lt CB32 _ (cb32_nrow L) ltac:(rewrite length_cb32; auto) (cc32_in c Hc)) as H.
    fold V in H. rewrite Nat.div_add, Nat.div_small by lia. reflexivity.
  Qed.

  Lemma sc_cb32_ls c : in_lattice L c -> sc_cb32 L (ls_cb32 L c) = c.
  Proof.
    intros Hc. pose proof (in_lattice_length _ _ Hc) as Hl. fold n in Hl.
    set (i := ls_cb32 L c).
    pose proof (sc_cb32_get i) as (Hlr & H0 & Hm).
    pose proof (ls_cb32_colour c Hc) as Hq. fold i in Hq. rewrite Hq in *.
    assert (Hmod : i mod V = local_site CB32 (cc32 c) (cb32_nrow L)).
    { unfold i. rewrite ls_cb32_eq by auto. 
      pose proof (local_site_lt CB32 _ (cb32_nrow L) ltac:(rewrite length_cb32; auto) (cc32_in c Hc)) as H.
      fold V in H. rewrite Nat.mod_add, Nat.mod_small by lia. reflexivity. }
    rewrite Hmod in *.
    rewrite (crtesn_local_site CB32 (cc32 c) (cb32_nrow L) ltac:(rewrite length_cb32; auto) (cc32_in c Hc)) in *.
    assert (Hb : forall m, m < n -> bit (colour32 c) m = get c m mod 2).
    { intros m Hlt. rewrite <- bit_parity_bits by lia. rewrite !bit_testbit. f_equal.
      unfold colour32. rewrite Hl.
      rewrite <- (Nat.mod_pow2_bits_low _ n m) by auto. rewrite (Nat.mul_comm (2 ^ n)), Nat.mod_add by (apply Nat.pow_nonzero; lia).
      rewrite Nat.mod_small; [reflexivity|]. rewrite <- Hl. apply parity_bits_lt. }
    assert (Hbn : bit (colour32 c) n = list_sum (map (fun x => x / 2) c) mod 2).
    { unfold bit, colour32. rewrite Hl, (Nat.mul_comm (2 ^ n)), Nat.div_add by (apply Nat.pow_nonzero; lia).
      rewrite Nat.div_small; [|rewrite <- Hl; apply parity_bits_lt].
      rewrite Nat.add_0_l. apply Nat.mod_mod. lia. }
    assert (Hcc : forall m, 0 < m < n -> get (cc32 c) m = get c m / 2).
    { intros m Hlt. unfold cc32. rewrite get_map_seq by lia. destruct (Nat.eqb_spec m 0); [lia|auto]. }
    assert (Hcc0 : get (cc32 c) 0 = get c 0 / 4).
    { unfold cc32. rewrite get_map_seq by auto. reflexivity. }
    apply get_ext; [congruence|]. rewrite Hlr. intros m Hlt.
    destruct m as [|m].
    - rewrite H0, Hb, Hcc0 by auto. unfold top32. rewrite Hq, Hbn. unfold par32.
      rewrite sum_half_split by auto.
      unfold psum. rewrite (sum_ext (get (cc32 c)) (fun m => get c m / 2)).
      2:{ intros m Hin. apply in_seq in Hin. apply Hcc. lia. }
      generalize (list_sum (map (fun m => get c m / 2) (seq 1 (n - 1)))) (get c 0). clear. intros; lia.
    - rewrite Hm, Hb, Hcc by lia. pose proof (Nat.div_mod (get c (S m)) 2). lia.
  Qed.
End CB32.

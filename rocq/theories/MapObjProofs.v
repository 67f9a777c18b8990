(** Proofs about the map objects: equality of objects, serialised keys, the memory map. *)
From Coq Require Import List Arith NArith ZArith Bool Permutation Lia.
From Coq Require Import ZifyBool ZifyNat ZifyN.
From Verif Require Import Base CrcModel IoModel CrcSpec IoSpec CrcProofs SwapProofs IoProofs MapObjModel MapObjSpec.
Import ListNotations.
Local Open Scope N_scope.

Lemma string_eqb_eq a : forall b, string_eqb a b = true <-> a = b.
Proof.
  induction a as [|x a IH]; intros [|y b]; cbn [string_eqb]; try (split; (reflexivity || discriminate)).
  rewrite andb_true_iff, IH, N.eqb_eq. split; [intros [-> ->]; reflexivity|]. intros E. now inversion E.
Qed.
Lemma string_eqb_refl a : string_eqb a a = true. Proof. now apply string_eqb_eq. Qed.
Lemma string_eqb_neq a b : a <> b -> string_eqb a b = false.
Proof. intros H. destruct (string_eqb a b) eqn:E; [|reflexivity]. apply string_eqb_eq in E. tauto. Qed.

(** ** Equality of objects *)
Lemma list_eqb_eq {A} (f : A -> A -> bool) l : Forall (fun x => forall y, f x y = true <-> x = y) l ->
  forall m, list_eqb f l m = true <-> l = m.
Proof.
  induction 1 as [|x l H HF IH]; intros [|y m]; cbn [list_eqb]; try (split; (reflexivity || discriminate)).
  rewrite andb_true_iff, H, IH. split; [intros [-> ->]; reflexivity|]. intros E. now inversion E.
Qed.
Lemma list_eqb_nat l m : list_eqb Nat.eqb l m = true <-> l = m.
Proof. apply list_eqb_eq, Forall_forall. intros x _ y. apply Nat.eqb_eq. Qed.
Lemma list_eqb_N l m : list_eqb N.eqb l m = true <-> l = m.
Proof. apply list_eqb_eq, Forall_forall. intros x _ y. apply N.eqb_eq. Qed.

Section ValueInd.
  Variable P : value -> Prop.
  Hypothesis Hprim : forall n, P (VPrim n).
  Hypothesis Hdesc : forall s, P (VDesc s).
  Hypothesis Hseq : forall l, Forall P l -> P (VSeq l).
  Hypothesis Hmulti : forall ns l, Forall P l -> P (VMulti ns l).
  Hypothesis Hnd : forall ns l, Forall P l -> P (VNd ns l).
  Hypothesis Hmap : forall l, Forall (fun p => P (fst p) /\ P (snd p)) l -> P (VMap l).
  Hypothesis Hpair : forall a b, P a -> P b -> P (VPair a b).
  Fixpoint value_ind' (v : value) : P v :=
    let go := fix go (l : list value) : Forall P l :=
      match l return Forall P l with [] => Forall_nil P | x :: r => Forall_cons x (value_ind' x) (go r) end in
    match v with
    | VPrim n => Hprim n
    | VDesc s => Hdesc s
    | VSeq l => Hseq l (go l)
    | VMulti ns l => Hmulti ns l (go l)
    | VNd ns l => Hnd ns l (go l)
    | VMap l => Hmap l ((fix gp (l : list (value * value)) : Forall (fun p => P (fst p) /\ P (snd p)) l :=
        match l return Forall (fun p => P (fst p) /\ P (snd p)) l with
        | [] => Forall_nil _
        | (x, y) :: r => Forall_cons (x, y) (conj (value_ind' x) (value_ind' y)) (gp r)
        end) l)
    | VPair a b => Hpair a b (value_ind' a) (value_ind' b)
    end.
End ValueInd.

Lemma value_eqb_eq a : forall b, value_eqb a b = true <-> a = b.
Proof.
  induction a as [n|s|l H|ns l H|ns l H|l H|x y Hx Hy] using value_ind'; intros [m|t|k|ms k|ms k|k|u v]; cbn [value_eqb];
    try (split; (reflexivity || discriminate)).
  - rewrite N.eqb_eq. split; [intros ->; reflexivity|intros E; now inversion E].
  - rewrite list_eqb_N. split; [intros ->; reflexivity|intros E; now inversion E].
  - rewrite (list_eqb_eq _ _ H). split; [intros ->; reflexivity|intros E; now inversion E].
  - rewrite andb_true_iff, list_eqb_nat, (list_eqb_eq _ _ H). split; [intros [-> ->]; reflexivity|intros E; now inversion E].
  - rewrite andb_true_iff, list_eqb_nat, (list_eqb_eq _ _ H). split; [intros [-> ->]; reflexivity|intros E; now inversion E].
  - rewrite list_eqb_eq; [split; [intros ->; reflexivity|intros E; now inversion E]|].
    eapply Forall_impl; [|exact H]. cbn beta. intros [p q] [Hp Hq] [p' q']. cbn [fst snd] in *. rewrite andb_true_iff, Hp, Hq.
    split; [intros [-> ->]; reflexivity|intros E; now inversion E].
  - rewrite andb_true_iff, Hx, Hy. split; [intros [-> ->]; reflexivity|intros E; now inversion E].
Qed.
Lemma value_eqb_refl a : value_eqb a a = true. Proof. now apply value_eqb_eq. Qed.
Lemma value_eqb_neq a b : a <> b -> value_eqb a b = false.
Proof. intros H. destruct (value_eqb a b) eqn:E; [|reflexivity]. apply value_eqb_eq in E. tauto. Qed.
Lemma value_dec (a b : value) : {a = b} + {a <> b}.
Proof. destruct (value_eqb a b) eqn:E; [left; now apply value_eqb_eq|right]. intros ->. now rewrite value_eqb_refl in E. Qed.

(** ** Finite maps *)
Section FmapFacts.
  Context {A : Type}.
  Implicit Types m : fmap A.
  Lemma lookup_put_same k a m : lookup k (put k a m) = Some a.
  Proof.
    induction m as [|[k' a'] m IH]; cbn [put lookup]; [now rewrite value_eqb_refl|].
    destruct (value_eqb k k') eqn:E; cbn [lookup]; [now rewrite value_eqb_refl|]. now rewrite E.
  Qed.
  Lemma lookup_put_other k k' a m : k <> k' -> lookup k' (put k a m) = lookup k' m.
  Proof.
    intros H. induction m as [|[k2 a2] m IH]; cbn [put lookup]; [now rewrite value_eqb_neq by congruence|].
    destruct (value_eqb k k2) eqn:E; cbn [lookup].
    - apply value_eqb_eq in E. subst. now rewrite value_eqb_neq by congruence.
    - now rewrite IH.
  Qed.
  Lemma lookup_In k a m : lookup k m = Some a -> In (k, a) m.
  Proof.
    induction m as [|[k' a'] m IH]; cbn [lookup]; [discriminate|]. destruct (value_eqb k k') eqn:E.
    - intros H. inversion H; subst. apply value_eqb_eq in E. subst. now left.
    - intros H. right. auto.
  Qed.
  Lemma lookup_none k m : lookup k m = None <-> ~ In k (map fst m).
  Proof.
    induction m as [|[k' a'] m IH]; cbn [lookup map fst In]; [tauto|]. destruct (value_eqb k k') eqn:E.
    - apply value_eqb_eq in E. subst. split; [discriminate|tauto].
    - rewrite IH. split; [|tauto]. intros H [X|X]; [subst; now rewrite value_eqb_refl in E|tauto].
  Qed.
  Lemma In_lookup k a m : NoDup (map fst m) -> In (k, a) m -> lookup k m = Some a.
  Proof.
    induction m as [|[k' a'] m IH]; cbn [lookup map fst In]; [tauto|]. intros ND [E|HI].
    - inversion E; subst. now rewrite value_eqb_refl.
    - inversion ND; subst. rewrite value_eqb_neq; [auto|]. intros ->. apply H1, in_map_iff. now exists (k', a).
  Qed.
  Lemma put_keys k a m : map fst (put k a m) = match lookup k m with Some _ => map fst m | None => map fst m ++ [k] end.
  Proof.
    induction m as [|[k' a'] m IH]; cbn [put lookup map fst]; [reflexivity|]. destruct (value_eqb k k') eqn:E.
    - apply value_eqb_eq in E. now subst.
    - cbn [map fst]. rewrite IH. destruct (lookup k m); reflexivity.
  Qed.
  Lemma nodup_snoc {B} (l : list B) x : NoDup l -> ~ In x l -> NoDup (l ++ [x]).
  Proof.
    intros H N. apply (Permutation_NoDup (l := x :: l)); [|now constructor]. apply Permutation_cons_append.
  Qed.
  Lemma put_nodup k a m : NoDup (map fst m) -> NoDup (map fst (put k a m)).
  Proof.
    intros H. rewrite put_keys. destruct (lookup k m) eqn:E; [exact H|]. apply nodup_snoc; [exact H|]. now apply lookup_none.
  Qed.
  Lemma put_In k a m k' a' : NoDup (map fst m) -> In (k', a') (put k a m) -> (k' = k /\ a' = a) \/ (k' <> k /\ In (k', a') m).
  Proof.
    intros ND H. apply In_lookup in H; [|now apply put_nodup]. destruct (value_dec k k') as [->|N].
    - rewrite lookup_put_same in H. inversion H. now left.
    - rewrite lookup_put_other in H by exact N. right. split; [congruence|]. now apply lookup_In.
  Qed.
End FmapFacts.

(** ** Serialised keys *)
Section Keys.
  Variable klt : value -> value -> bool.
  Hypothesis klt_order : strict_order klt.

  Lemma coherent_buffer_empty : coherent buffer_empty. Proof. intros X. discriminate X. Qed.
  Lemma key_string_ok e tk k : has_type klt tk k -> key_string e tk k = Val (enc tk k).
  Proof.
    intros H. unfold key_string. rewrite (write_val_ok klt) by (auto using coherent_buffer_empty). cbn [bind]. f_equal.
    unfold buffer_str. destruct (emit_fields (enc tk k) buffer_empty eq_refl) as (_ & -> & _).
    cbn [buffer_empty s_data s_put]. rewrite overwrite_data by (cbn; lia). rewrite skipn_nil. cbn [firstn app]. apply app_nil_r.
  Qed.
  Lemma key_of_string_ok e tk k : has_type klt tk k -> key_of_string klt e tk (enc tk k) = Val k.
  Proof.
    intros H. unfold key_of_string. rewrite (read_val_ok klt klt_order e tk k []); [reflexivity|exact H|].
    split; [reflexivity|]. split; [intros X; discriminate X|]. exists []. now rewrite app_nil_r.
  Qed.
  Lemma enc_inj tk k k' : has_type klt tk k -> has_type klt tk k' -> enc tk k = enc tk k' -> k = k'.
  Proof.
    intros H H' E. pose proof (key_of_string_ok BigE tk k H) as A. rewrite E, key_of_string_ok in A by exact H'.
    now injection A.
  Qed.
  Lemma nbytes_ok tk k : has_type klt tk k -> nbytes tk k = length (enc tk k).
  Proof.
    intros H. unfold nbytes. pose proof (key_string_ok BigE tk k H) as E. unfold key_string in E.
    destruct (write_val BigE tk k buffer_empty); cbn [bind] in E; inversion E. reflexivity.
  Qed.
End Keys.

(** ** unordered_map *)
Section UmapFacts.
  Context {A : Type}.
  Implicit Types m : umap A.
  Lemma umap_find_In k a m : umap_find k m = Some a -> In (k, a) m.
  Proof.
    unfold umap_find. intros H. destruct (find _ m) as [[k' a']|] eqn:E; [|discriminate]. apply find_some in E. destruct E as [I E].
    cbn in *. apply string_eqb_eq in E. inversion H. now subst.
  Qed.
  Lemma umap_find_cons k k' a m : umap_find k ((k', a) :: m) = if string_eqb k' k then Some a else umap_find k m.
  Proof. unfold umap_find. cbn [find fst]. destruct (string_eqb k' k); reflexivity. Qed.
  Lemma umap_find_none k m : umap_find k m = None <-> ~ In k (map fst m).
  Proof.
    induction m as [|[k' a] m IH]; [cbn; tauto|]. rewrite umap_find_cons. cbn [map fst In]. destruct (string_eqb k' k) eqn:E.
    - apply string_eqb_eq in E. subst. split; [discriminate|tauto].
    - rewrite IH. split; [|tauto]. intros N [X|X]; [subst; now rewrite string_eqb_refl in E|tauto].
  Qed.
  Lemma In_umap_find k a m : NoDup (map fst m) -> In (k, a) m -> umap_find k m = Some a.
  Proof.
    induction m as [|[k' a'] m IH]; cbn [map fst In]; [tauto|]. rewrite umap_find_cons. intros ND [E|HI].
    - inversion E; subst. now rewrite string_eqb_refl.
    - inversion ND; subst. rewrite string_eqb_neq; [auto|]. intros ->. apply H1, in_map_iff. now exists (k, a).
  Qed.
End UmapFacts.

(** ** The memory map *)
Section MemoryProofs.
  Variable klt : value -> value -> bool.
  Hypothesis klt_order : strict_order klt.
  Variable e : endian.
  Variable tk : ty.
  Variable iter : umap (value * value) -> list (list N * (value * value)).
  Hypothesis iter_perm : forall m, Permutation (iter m) m.

  (** The table holds exactly the pairs of the finite map, under their serialised keys. *)
  Definition entry (p : value * value) : list N * (value * value) := (enc tk (fst p), p).
  Definition Rmem (m : umap (value * value)) (f : fmap value) : Prop :=
    Permutation m (map entry f) /\ NoDup (map fst f) /\ Forall (fun p => has_type klt tk (fst p)) f.

  Lemma entry_keys f : map fst (map entry f) = map (enc tk) (map fst f).
  Proof. rewrite !map_map. reflexivity. Qed.
  Lemma enc_nodup (l : list value) : Forall (has_type klt tk) l -> NoDup l -> NoDup (map (enc tk) l).
  Proof.
    intros HT. induction 1 as [|x l N ND IH]; cbn [map]; [constructor|]. inversion HT; subst. constructor; [|auto].
    intros X. apply in_map_iff in X. destruct X as (y & E & Hy). apply N. rewrite Forall_forall in H2.
    replace x with y; [exact Hy|]. now apply (enc_inj klt klt_order tk); auto.
  Qed.
  Lemma Rmem_nodup m f : Rmem m f -> NoDup (map fst m).
  Proof.
    intros (P & ND & HT). eapply Permutation_NoDup; [apply Permutation_map, Permutation_sym, P|]. rewrite entry_keys.
    apply enc_nodup; [now apply Forall_map|exact ND].
  Qed.
  Lemma Rmem_find m f k : Rmem m f -> has_type klt tk k ->
    umap_find (enc tk k) m = option_map (fun v => (k, v)) (lookup k f).
  Proof.
    intros R Hk. pose proof (Rmem_nodup m f R) as NDm. destruct R as (P & ND & HT).
    destruct (lookup k f) as [v|] eqn:E; cbn [option_map].
    - apply In_umap_find; [exact NDm|]. eapply Permutation_in; [apply Permutation_sym, P|]. apply in_map_iff. exists (k, v).
      split; [reflexivity|]. now apply lookup_In.
    - apply umap_find_none. intros X. apply lookup_none in E. apply E.
      apply (Permutation_in (l' := map fst (map entry f))) in X; [|now apply Permutation_map]. rewrite entry_keys in X.
      apply in_map_iff in X. destruct X as (y & Ey & Hy). rewrite Forall_forall in HT.
      replace k with y; [exact Hy|]. apply (enc_inj klt klt_order tk); [|exact Hk|exact Ey].
      apply in_map_iff in Hy. destruct Hy as ([y' v'] & Ey' & Hy). cbn in Ey'. subst y'. exact (HT (y, v') Hy).
  Qed.

  Lemma put_typed {A} k (a : A) f : has_type klt tk k -> Forall (fun p => has_type klt tk (fst p)) f ->
    Forall (fun p => has_type klt tk (fst p)) (put k a f).
  Proof.
    intros Hk. induction 1 as [|[k' a'] f H HF IH]; cbn [put]; [now repeat constructor|].
    destruct (value_eqb k k'); constructor; auto.
  Qed.
  Lemma put_new {A} k (a : A) f : lookup k f = None -> put k a f = f ++ [(k, a)].
  Proof.
    induction f as [|[k' a'] f IH]; cbn [put lookup app]; [reflexivity|]. destruct (value_eqb k k'); [discriminate|].
    intros H. now rewrite IH.
  Qed.
  Lemma put_old {A} k (a : A) f : NoDup (map fst f) -> lookup k f <> None ->
    put k a f = map (fun p => if value_eqb k (fst p) then (k, a) else p) f.
  Proof.
    induction f as [|[k' a'] f IH]; cbn [put lookup map fst]; [tauto|]. intros ND H. inversion ND; subst.
    destruct (value_eqb k k') eqn:E.
    - f_equal. apply value_eqb_eq in E. subst k'. rewrite <- (map_id f) at 1. apply map_ext_in. intros [k2 a2] Hi. cbn [fst].
      rewrite value_eqb_neq; [reflexivity|]. intros <-. apply H2, in_map_iff. now exists (k, a2).
    - f_equal. now apply IH.
  Qed.

  Lemma umap_set_entry m f k v : Rmem m f -> has_type klt tk k -> lookup k f <> None ->
    Permutation (umap_set (enc tk k) (k, v) m) (map entry (put k v f)).
  Proof.
    intros (P & ND & HT) Hk HL. rewrite put_old by assumption. unfold umap_set.
    eapply Permutation_trans; [apply Permutation_map, P|]. rewrite !map_map. 
    match goal with |- Permutation ?a ?b => replace a with b; [apply Permutation_refl|] end.
    apply map_ext_in. intros [k' v'] Hp. unfold entry at 1 2 3. cbn [fst].
    destruct (value_eqb k k') eqn:E.
    - apply value_eqb_eq in E. subst k'. now rewrite string_eqb_refl.
    - rewrite string_eqb_neq; [reflexivity|]. intros X. rewrite Forall_forall in HT. apply enc_inj with (klt := klt) in X; auto.
      + subst. now rewrite value_eqb_refl in E.
      + exact (HT _ Hp).
  Qed.

  Lemma Rmem_put m f k v : Rmem m f -> has_type klt tk k ->
    Rmem (match umap_find (enc tk k) m with
          | Some _ => umap_set (enc tk k) (k, v) m
          | None => umap_insert (enc tk k) (k, v) m
          end) (put k v f).
  Proof.
    intros R Hk. pose proof (Rmem_find m f k R Hk) as F. destruct (lookup k f) as [v0|] eqn:E; cbn [option_map] in F; rewrite F.
    - split; [apply umap_set_entry; auto; congruence|]. destruct R as (P & ND & HT). split; [now apply put_nodup|now apply put_typed].
    - unfold umap_insert. rewrite F. destruct R as (P & ND & HT). split; [|split; [now apply put_nodup|now apply put_typed]].
      rewrite put_new by exact E. rewrite map_app. cbn [map]. unfold entry at 2. cbn [fst].
      eapply Permutation_trans; [|apply Permutation_cons_append]. now constructor.
  Qed.

  Lemma mem_insert_ok m f u k v : Rmem m f -> has_type klt tk k ->
    exists m', mem_insert e tk k v (mkMem m u) = Val (mkMem m' u) /\ Rmem m' (put k v f).
  Proof.
    intros R Hk. eexists. unfold mem_insert. rewrite (key_string_ok klt) by exact Hk. cbn [bind m_map m_user]. split; [reflexivity|].
    now apply Rmem_put.
  Qed.
  Lemma mem_insert_range_ok l : Forall (has_type klt tk) (map fst l) -> forall m f u, Rmem m f ->
    exists m', mem_insert_range e tk l (mkMem m u) = Val (mkMem m' u) /\ Rmem m' (fold_left (fun f p => put (fst p) (snd p) f) l f).
  Proof.
    induction l as [|[k v] l IH]; intros HT m f u R; cbn [mem_insert_range fold_left map fst snd] in *; [now exists m|].
    inversion HT; subst. destruct (mem_insert_ok m f u k v R) as (m' & -> & R'); [assumption|]. cbn [bind]. now apply IH.
  Qed.

  Lemma filter_entry k f : has_type klt tk k -> Forall (fun p => has_type klt tk (fst p)) f ->
    filter (fun p => negb (string_eqb (fst p) (enc tk k))) (map entry f) = map entry (remove k f).
  Proof.
    intros Hk. unfold remove. induction 1 as [|[k' v'] f H HF IH]; cbn [map filter]; [reflexivity|]. unfold entry at 1. cbn [fst] in *.
    rewrite IH. destruct (value_eqb k k') eqn:E.
    - apply value_eqb_eq in E. subst k'. now rewrite string_eqb_refl.
    - rewrite string_eqb_neq; [reflexivity|]. intros X. apply enc_inj with (klt := klt) in X; auto. subst. now rewrite value_eqb_refl in E.
  Qed.
  Lemma permutation_filter {B} (g : B -> bool) l l' : Permutation l l' -> Permutation (filter g l) (filter g l').
  Proof.
    induction 1; cbn [filter].
    - constructor.
    - destruct (g x); [now constructor|assumption].
    - destruct (g x), (g y); try reflexivity. constructor.
    - eapply Permutation_trans; eassumption.
  Qed.
  Lemma remove_sub {A} k (f : fmap A) : NoDup (map fst f) -> NoDup (map fst (remove k f)).
  Proof.
    unfold remove. induction f as [|[k' a] f IH]; cbn [map fst filter]; [auto|]. intros ND. inversion ND; subst.
    destruct (negb (value_eqb k k')); [|auto]. cbn [map fst]. constructor; [|auto]. intros X. apply H1.
    apply in_map_iff in X. destruct X as (p & E & Hp). apply filter_In in Hp. apply in_map_iff. exists p. tauto.
  Qed.
  Lemma remove_absent {A} k (f : fmap A) : lookup k f = None -> remove k f = f.
  Proof.
    unfold remove. induction f as [|[k' a] f IH]; cbn [lookup filter fst]; [reflexivity|].
    destruct (value_eqb k k'); [discriminate|]. cbn [negb]. intros H. now rewrite IH.
  Qed.
  Lemma Rmem_remove m f k : Rmem m f -> has_type klt tk k -> Rmem (umap_erase (enc tk k) m) (remove k f).
  Proof.
    intros (P & ND & HT) Hk. split.
    - unfold umap_erase. eapply Permutation_trans; [apply permutation_filter, P|]. now rewrite filter_entry.
    - split; [now apply remove_sub|]. unfold remove. apply Forall_forall. intros p Hp. apply filter_In in Hp.
      rewrite Forall_forall in HT. now apply HT.
  Qed.
  Lemma Rmem_iter m f : Rmem m f -> Permutation (map snd (iter m)) f.
  Proof.
    intros (P & _ & _). eapply Permutation_trans; [apply Permutation_map, iter_perm|].
    eapply Permutation_trans; [apply Permutation_map, P|]. rewrite map_map. cbn. now rewrite map_id.
  Qed.

  Lemma mem_step_ok op m f u : Rmem m f -> Forall (has_type klt tk) (op_keys op) ->
    match mem_step e tk iter op (mkMem m u), fm_step op (f, u) with
    | Val (o1, m'), Val (o2, (f', u')) => same_out o1 o2 /\ m_user m' = u' /\ Rmem (m_map m') f'
    | Abort, Abort => True
    | _, _ => False
    end.
  Proof.
    intros R HK. destruct op; cbn [mem_step fm_step op_keys] in *; match type of HK with Forall _ [_] => inversion HK as [|? ? Hk _]; subst | _ => idtac end.
    - destruct (mem_insert_ok m f u k v R Hk) as (m' & -> & R'). cbn. auto.
    - destruct (mem_insert_range_ok l HK m f u R) as (m' & -> & R'). cbn. auto.
    - unfold mem_get. rewrite (key_string_ok klt) by exact Hk. cbn [bind m_map]. rewrite (Rmem_find m f k R Hk).
      destruct (lookup k f); cbn; auto.
    - unfold mem_erase. rewrite (key_string_ok klt) by exact Hk. cbn [bind m_map m_user]. rewrite (Rmem_find m f k R Hk).
      destruct (lookup k f) eqn:E; cbn [option_map bind m_map m_user same_out].
      + split; [reflexivity|]. split; [reflexivity|]. now apply Rmem_remove.
      + rewrite remove_absent by exact E. auto.
    - cbn. split; [reflexivity|]. split; [reflexivity|]. split; [constructor|]. split; constructor.
    - unfold mem_exist. rewrite (key_string_ok klt) by exact Hk. cbn [bind m_map]. rewrite (Rmem_find m f k R Hk).
      destruct (lookup k f); cbn; auto.
    - cbn [same_out m_user m_map]. split; [|auto]. f_equal. unfold mem_size. cbn [m_map]. destruct R as (P & _ & _).
      rewrite (Permutation_length P), map_length. reflexivity.
    - cbn [same_out m_user m_map]. split; [|auto]. unfold mem_keys. cbn [m_map]. rewrite <- (map_map snd fst).
      apply Permutation_map. now apply Rmem_iter.
    - cbn [same_out m_user m_map]. split; [|auto]. unfold mem_keysAndValues. cbn [m_map]. now apply Rmem_iter.
    - unfold mem_index. rewrite (key_string_ok klt) by exact Hk. cbn [bind m_map]. rewrite (Rmem_find m f k R Hk).
      destruct (lookup k f); cbn; auto.
    - unfold mem_assign. rewrite (key_string_ok klt) by exact Hk. cbn [bind m_map m_user]. rewrite (Rmem_find m f k R Hk).
      pose proof (Rmem_put m f k v R Hk) as RP. rewrite (Rmem_find m f k R Hk) in RP.
      destruct (lookup k f) eqn:E; cbn [option_map bind m_map m_user same_out fst]; [|exact I].
      cbn [option_map] in RP. auto.
    - cbn. auto.
    - cbn. auto.
    - cbn. auto.
  Qed.

  Lemma mem_run_ok ops : forall m f u, Rmem m f -> keys_typed klt tk ops ->
    res_outs (mem_run e tk iter ops (mkMem m u)) (fm_run ops (f, u)).
  Proof.
    induction ops as [|op ops IH]; intros m f u R HK; cbn [mem_run fm_run]; [constructor|].
    inversion HK; subst. pose proof (mem_step_ok op m f u R H1) as S.
    destruct (mem_step e tk iter op (mkMem m u)) as [[o1 [m1 u1]]| |], (fm_step op (f, u)) as [[o2 [f2 u2]]| |]; cbn [bind] in *; try contradiction; [|exact I].
    cbn [m_map m_user] in S. destruct S as (SO & -> & R'). specialize (IH m1 f2 u2 R' H2).
    destruct (mem_run e tk iter ops (mkMem m1 u2)), (fm_run ops (f2, u2)); cbn [bind res_outs] in *; try contradiction; [|exact I].
    now constructor.
  Qed.
End MemoryProofs.

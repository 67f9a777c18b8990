(** Proofs about XML input and output: reading into maps that hold something, texts that are not numbers. *)
From Coq Require Import String List Arith NArith ZArith Bool Sorted Ascii Lia.
From Verif Require Import Base NerscHeader NerscText XmlModel XmlSpec XmlProofs XmlRound.
Import ListNotations.
Local Open Scope nat_scope.
Local Notation length := List.length.

Lemma same_key_spec t a b : key t a -> key t b -> same_key a b = true <-> a = b.
Proof.
  intros Ha Hb. unfold same_key. rewrite <- (kcompare_eq t a b Ha Hb). destruct (kcompare a b); split; congruence.
Qed.
Lemma same_key_refl t a : key t a -> same_key a a = true.
Proof. intros H. now apply (same_key_spec t). Qed.
Definition keyed (t : ty) (m : list (value * value)) : Prop := Forall (fun e => key t (fst e)) m.

(** std::map *)
Lemma insert_keyed t k v m : key t k -> keyed t m -> keyed t (map_insert k v m).
Proof.
  intros Hk. induction 1 as [|[k' v'] m H HM IH]; cbn [map_insert]; [constructor; [exact Hk|constructor]|].
  destruct (kcompare k k'); [now constructor|constructor; [exact Hk|now constructor]|]. constructor; [exact H|exact IH].
Qed.
Lemma insert_ordered t k v m : key t k -> keyed t m -> ordered m -> ordered (map_insert k v m) /\
  forall k', key t k' -> kcompare k' k = Lt -> Forall (fun e => kcompare k' (fst e) = Lt) m -> Forall (fun e => kcompare k' (fst e) = Lt) (map_insert k v m).
Proof.
  intros Hk. induction 1 as [|[k1 v1] m H HM IH]; intros O; cbn [map_insert].
  - split; [repeat constructor|]. intros k' _ L _. now constructor.
  - cbn [fst] in H. inversion O as [|? ? O1 O2]; subst. cbn [map fst] in *. destruct (kcompare k k1) eqn:C.
    + split; [exact O|auto].
    + split.
      * constructor; [exact O|]. constructor; [exact C|]. rewrite Forall_map in O2. fold (map (@fst value value) m). apply Forall_map. apply Forall_forall. intros e He. rewrite Forall_forall in O2.
        apply (kcompare_trans t k k1); [exact Hk|exact H| |exact C|now apply O2].
        unfold keyed in HM. rewrite Forall_forall in HM. now apply HM.
      * intros k' _ L F. constructor; [exact L|exact F].
    + destruct (IH O1) as [I1 I2]. split.
      * unfold ordered. cbn [map fst]. constructor; [exact I1|]. apply Forall_map. apply I2; [exact H| |now rewrite Forall_map in O2].
        rewrite (kcompare_sym t k k1 Hk H), C. reflexivity.
      * intros k' Hk' L F. inversion F as [|? ? F1 F2]; subst. constructor; [exact F1|]. now apply I2.
Qed.
Lemma find_above t k m : key t k -> keyed t m -> Forall (fun e => kcompare k (fst e) = Lt) m -> find_key k m = None.
Proof.
  intros Hk HM. induction HM as [|[k' v'] m H HM IH]; intros F; [reflexivity|]. inversion F as [|? ? F1 F2]; subst. cbn [find_key fst] in *.
  unfold same_key. rewrite F1. now apply IH.
Qed.
Lemma insert_find t k v m k' : key t k -> key t k' -> keyed t m -> ordered m ->
  find_key k' (map_insert k v m) = match find_key k' m with Some x => Some x | None => if same_key k' k then Some v else None end.
Proof.
  intros Hk Hk'. induction 1 as [|[k1 v1] m H HM IH]; intros O; [reflexivity|]. cbn [fst] in H. cbn [map_insert].
  inversion O as [|? ? O1 O2]; subst. cbn [map fst] in *. destruct (kcompare k k1) eqn:C.
  - apply (kcompare_eq t) in C; [|assumption|assumption]. subst k1. cbn [find_key]. destruct (same_key k' k); [reflexivity|]. now destruct (find_key k' m).
  - change (find_key k' ((k, v) :: (k1, v1) :: m)) with (if same_key k' k then Some v else find_key k' ((k1, v1) :: m)).
    destruct (same_key k' k) eqn:E; [|now destruct (find_key k' ((k1, v1) :: m))].
    apply (same_key_spec t) in E; [|assumption|assumption]. subst k'.
    rewrite (find_above t k ((k1, v1) :: m)); [reflexivity|exact Hk|now constructor|].
    constructor; [exact C|]. rewrite Forall_map in O2. apply Forall_forall. intros e He. rewrite Forall_forall in O2.
    apply (kcompare_trans t k k1); [exact Hk|exact H| |exact C|now apply O2]. unfold keyed in HM. rewrite Forall_forall in HM. now apply HM.
  - cbn [find_key]. destruct (same_key k' k1); [reflexivity|]. now apply IH.
Qed.
Lemma fold_insert t l : keyed t l -> forall m, keyed t m -> ordered m ->
  let r := fold_left (fun m e => map_insert (fst e) (snd e) m) l m in
  keyed t r /\ ordered r /\ forall k, key t k -> find_key k r = match find_key k m with Some x => Some x | None => find_key k l end.
Proof.
  induction 1 as [|[k1 v1] l H HL IH]; intros m HM HO; cbn [fold_left find_key].
  - split; [exact HM|]. split; [exact HO|]. intros k _. now destruct (find_key k m).
  - cbn [fst snd] in *. destruct (IH (map_insert k1 v1 m)) as (A & B & C).
    + now apply insert_keyed.
    + now apply (insert_ordered t).
    + split; [exact A|]. split; [exact B|]. intros k Hk. rewrite (C k Hk). rewrite (insert_find t) by assumption.
      destruct (find_key k m); [reflexivity|]. now destruct (same_key k k1).
Qed.

(** MapObjectMemory *)
Lemma obj_keyed t k v m : key t k -> keyed t m -> keyed t (obj_insert k v m).
Proof.
  intros Hk. induction 1 as [|[k' v'] m H HM IH]; cbn [obj_insert]; [constructor; [exact Hk|constructor]|].
  destruct (same_key k k'); constructor; assumption.
Qed.
Lemma obj_find t k v m k' : key t k -> key t k' -> keyed t m ->
  find_key k' (obj_insert k v m) = if same_key k' k then Some v else find_key k' m.
Proof.
  intros Hk Hk'. induction 1 as [|[k1 v1] m H HM IH]; [reflexivity|]. cbn [fst] in H. cbn [obj_insert]. destruct (same_key k k1) eqn:E.
  - apply (same_key_spec t) in E; [|assumption|assumption]. subst k1. cbn [find_key]. now destruct (same_key k' k).
  - cbn [find_key]. rewrite IH. destruct (same_key k' k1) eqn:E1; [|reflexivity].
    apply (same_key_spec t) in E1; [|assumption|assumption]. subst k1. destruct (same_key k' k) eqn:E2; [|reflexivity].
    apply (same_key_spec t) in E2; [|assumption|assumption]. subst k'. rewrite (same_key_refl t) in E by assumption. discriminate.
Qed.
Lemma fold_obj t l : keyed t l -> NoDup (map fst l) -> forall m, keyed t m ->
  let r := fold_left (fun m e => obj_insert (fst e) (snd e) m) l m in
  keyed t r /\ forall k, key t k -> find_key k r = match find_key k l with Some x => Some x | None => find_key k m end.
Proof.
  induction 1 as [|[k1 v1] l H HL IH]; intros ND m HM; cbn [fold_left find_key].
  - split; [exact HM|]. reflexivity.
  - cbn [map fst] in ND. inversion ND as [|? ? N1 N2]; subst. cbn [fst snd] in *. destruct (IH N2 (obj_insert k1 v1 m)) as (A & C); [now apply obj_keyed|].
    split; [exact A|]. intros k Hk. rewrite (C k Hk). rewrite (obj_find t) by assumption.
    destruct (same_key k k1) eqn:E; [|reflexivity]. apply (same_key_spec t) in E; [|assumption|assumption]. subst k.
    replace (find_key k1 l) with (@None value); [reflexivity|]. symmetry. clear - N1 HL H.
    induction HL as [|[k v] l HK HL IH]; [reflexivity|]. cbn [find_key map fst In] in *. destruct (same_key k1 k) eqn:E.
    + apply (same_key_spec t) in E; [|assumption|assumption]. exfalso. apply N1. left. now symmetry.
    + apply IH. tauto.
Qed.

(** ** Texts that are not numbers *)
Lemma no_number_extract k s ws r : no_number k s -> spaces ws -> stops r -> extract k (ws ++ s ++ r) = Fail (at_end r).
Proof.
  intros H Hw Hr. destruct H as [->|[->|(neg & m & Hn & Hm)]].
  - cbn [app]. apply extract_sign; auto.
  - cbn [app]. apply extract_sign; auto.
  - rewrite (extract_numeral k ws s neg m r Hw Hn Hr). destruct (fits k neg m) as [z|] eqn:E; [|reflexivity].
    exfalso. apply means_fits in E. now apply (Hm z).
Qed.
Lemma after_spelled k s zs sp g e : spelled k s zs -> spaces sp -> (s = [] \/ sp <> []) ->
  (forall w, spaces w -> extract k (w ++ g) = Fail e) ->
  scan_all (fuel_of (s ++ sp ++ g)) k (s ++ sp ++ g) = (zs, e) /\ scan_n (length zs) k (s ++ sp ++ g) = Ret zs.
Proof.
  intros Hs Hsp Hd He. destruct Hd as [-> | Hd].
  - cbn [app]. assert (zs = []) as ->.
    { inversion Hs as [ws Hw E1 E2|ws tok neg m z c rest zs0 Hw Hn Hm Hc Hr E1 E2|ws tok neg m z Hw Hn Hm E1 E2]; [reflexivity| |].
      - apply app_eq_nil in E1. destruct E1 as [_ E1]. apply app_eq_nil in E1. destruct E1 as [_ E1]. discriminate.
      - apply app_eq_nil in E1. destruct E1 as [_ E1]. destruct (numeral_head tok neg m [] Hn) as (x & y & E & _). rewrite app_nil_r, E1 in E. discriminate. }
    split; [|reflexivity]. apply scan_all_fail. now apply He.
  - apply (spelled_scan k s zs Hs sp g e Hsp); [now left|now apply He|]. intros w Hw. rewrite app_assoc. apply He. now apply spaces_app.
Qed.

(** Proofs about the data part of gauge archives. *)
From Coq Require Import List Arith NArith ZArith Bool Lia Permutation.
From Coq Require Import ZifyBool ZifyNat ZifyN.
From Verif Require Import Base LayoutModel LayoutSpec LayoutProofs LayoutOk SetModel SetProofs MapProofs
  CrcModel CrcSpec CrcProofs SwapProofs IoModel IoSpec IoProofs LatIoModel LatIoSpec LatIoProofs LatIoOk
  EvalSpec EvalProofs RingProofs NerscModel NerscSpec.
Import ListNotations.
Local Open Scope nat_scope.
Local Arguments crc32 : simpl never.

(** ** Sums of words *)
Definition nsum (l : list N) : N := fold_right N.add 0%N l.
Lemma nsum_app a b : nsum (a ++ b) = (nsum a + nsum b)%N.
Proof. induction a as [|x a IH]; cbn [app nsum fold_right]; [reflexivity|]. fold (nsum (a ++ b)). fold (nsum a). rewrite IH. lia. Qed.
Lemma nsum_concat ll : nsum (concat ll) = nsum (map nsum ll).
Proof. induction ll as [|l ll IH]; [reflexivity|]. cbn [concat map]. rewrite nsum_app, IH. reflexivity. Qed.
Lemma add32_fold l : forall a, (a < 2 ^ 32)%N -> fold_left add32 l a = ((a + nsum l) mod 2 ^ 32)%N.
Proof.
  induction l as [|x l IH]; intros a Ha; cbn [fold_left nsum fold_right].
  - rewrite N.add_0_r. symmetry. now apply N.mod_small.
  - fold (nsum l). rewrite IH by (apply N.mod_upper_bound; discriminate). unfold add32.
    rewrite N.add_mod_idemp_l by discriminate. f_equal. lia.
Qed.
Lemma add32_sum l : fold_left add32 l 0%N = sum_of l.
Proof. rewrite add32_fold by reflexivity. reflexivity. Qed.
Lemma sum_of_lt l : (sum_of l < 2 ^ 32)%N.
Proof. apply N.mod_upper_bound. discriminate. Qed.
Lemma add32_more l a : fold_left add32 l (sum_of a) = sum_of (a ++ l).
Proof.
  rewrite add32_fold by apply sum_of_lt. unfold sum_of. rewrite N.add_mod_idemp_l by discriminate.
  fold (nsum a). fold (nsum (a ++ l)). now rewrite nsum_app.
Qed.
Lemma nsum_mod ll : (nsum (map (fun l => nsum l mod 2 ^ 32) ll) mod 2 ^ 32 = nsum (map nsum ll) mod 2 ^ 32)%N.
Proof.
  induction ll as [|l ll IH]; [reflexivity|]. cbn [map nsum fold_right].
  fold (nsum (map (fun l => nsum l mod 2 ^ 32)%N ll)). fold (nsum (map nsum ll)).
  rewrite N.add_mod_idemp_l by discriminate.
  rewrite <- N.add_mod_idemp_r by discriminate. rewrite IH. now rewrite N.add_mod_idemp_r by discriminate.
Qed.
Lemma sum_of_sums ll : sum_of (map sum_of ll) = sum_of (concat ll).
Proof. unfold sum_of. fold (nsum (concat ll)). rewrite nsum_concat. apply nsum_mod. Qed.

Lemma N_monoid : comm_monoid 0%N N.add.
Proof. split; intros; lia. Qed.

(** ** The site order *)
Lemma site_order_file b : site_order b = file_order (build_kind b) (build_size b).
Proof. reflexivity. Qed.
Lemma order_crt b : build_ok b -> map (crt (lay_of b)) (seq 0 (volume (build_size b))) = site_order b.
Proof. apply crt_order. Qed.
Lemma order_in b c : build_ok b -> (In c (site_order b) <-> in_lattice (build_size b) c).
Proof. intros H. apply file_order_in. apply size_ok, H. Qed.
Lemma order_nodup b : build_ok b -> NoDup (site_order b).
Proof. intros H. rewrite <- order_crt by exact H. pose proof (coords_nodup b 0 _ H (le_n _)) as E. now rewrite Nat.sub_0_r in E. Qed.
Lemma order_perm b : build_ok b -> Permutation (coords (build_size b)) (site_order b).
Proof.
  intros H. apply NoDup_Permutation; [apply coords_NoDup|now apply order_nodup|].
  intros c. rewrite order_in by exact H. apply coords_in.
Qed.

Lemma flat_map_map {X Y Z} (f : Y -> list Z) (g : X -> Y) l : flat_map f (map g l) = flat_map (fun x => f (g x)) l.
Proof. induction l as [|x l IH]; [reflexivity|]. cbn. now rewrite IH. Qed.
Lemma flat_map_ext_in {X Y} (f g : X -> list Y) l : (forall x, In x l -> f x = g x) -> flat_map f l = flat_map g l.
Proof. induction l as [|x l IH]; intros H; [reflexivity|]. cbn. rewrite (H x) by now left. rewrite IH; [reflexivity|]. intros; apply H; now right. Qed.
Lemma flat_map_flat_map {X Y Z} (f : Y -> list Z) (g : X -> list Y) l : flat_map f (flat_map g l) = flat_map (fun x => flat_map f (g x)) l.
Proof. induction l as [|x l IH]; [reflexivity|]. cbn. rewrite flat_map_app. now rewrite IH. Qed.
Lemma list_prod_flat {X Y} (xs : list X) (ys : list Y) : list_prod xs ys = flat_map (fun x => map (pair x) ys) xs.
Proof. induction xs as [|x xs IH]; [reflexivity|]. cbn. now rewrite IH. Qed.
Lemma NoDup_list_prod {X Y} (xs : list X) (ys : list Y) : NoDup xs -> NoDup ys -> NoDup (list_prod xs ys).
Proof.
  intros HX HY. induction HX as [|x xs NI HX IH]; [constructor|]. cbn [list_prod]. apply NoDup_app_intro; auto.
  - apply FinFun.Injective_map_NoDup; [|exact HY]. intros a b E. congruence.
  - intros p Hp Hp'. apply in_map_iff in Hp as (y & <- & _). apply in_prod_iff in Hp'. tauto.
Qed.

(** ** Words in memory *)
Lemma be_image size w : be size w = image BigE size w.
Proof. reflexivity. Qed.
Lemma image_app e size a b : image e size (a ++ b) = image e size a ++ image e size b.
Proof. unfold image. now rewrite map_app, concat_app. Qed.
Lemma image_flat {X} e size (f : X -> list N) l : image e size (flat_map f l) = flat_map (fun x => image e size (f x)) l.
Proof. induction l as [|x l IH]; [reflexivity|]. cbn [flat_map]. now rewrite image_app, IH. Qed.

Definition halves (e : endian) (v : N) : list N :=
  match e with LittleE => [(v mod 2 ^ 32)%N; (v / 2 ^ 32)%N] | BigE => [(v / 2 ^ 32)%N; (v mod 2 ^ 32)%N] end.
Lemma le_bytes_app n : forall m v, le_bytes (n + m) v = le_bytes n v ++ le_bytes m (v / 2 ^ (8 * N.of_nat n)).
Proof.
  induction n as [|n IH]; intros m v; [cbn [Nat.add le_bytes app]; f_equal; now rewrite N.div_1_r|].
  cbn [Nat.add le_bytes app]. f_equal. rewrite IH. f_equal. f_equal. rewrite N.div_div; [|discriminate|apply N.pow_nonzero; discriminate].
  f_equal. replace (8 * N.of_nat (S n))%N with (8 + 8 * N.of_nat n)%N by lia. rewrite N.pow_add_r. reflexivity.
Qed.
Lemma le_bytes_mod n : forall v, le_bytes n (v mod 2 ^ (8 * N.of_nat n)) = le_bytes n v.
Proof.
  induction n as [|n IH]; intros v; [reflexivity|]. cbn [le_bytes].
  replace (8 * N.of_nat (S n))%N with (8 + 8 * N.of_nat n)%N by lia. rewrite N.pow_add_r. change (2 ^ 8)%N with 256%N.
  set (P := (2 ^ (8 * N.of_nat n))%N) in *. assert (HP : P <> 0%N) by (apply N.pow_nonzero; discriminate).
  rewrite (N.mod_mul_r v 256 P) by (auto; discriminate). f_equal.
  - rewrite (N.mul_comm 256 (_ mod _)), N.mod_add by discriminate. apply N.mod_mod. discriminate.
  - rewrite (N.mul_comm 256 (_ mod _)), N.div_add by discriminate. rewrite (N.div_small (v mod 256)) by (apply N.mod_upper_bound; discriminate).
    rewrite N.add_0_l. apply IH.
Qed.
Lemma mem_halves e v : mem e 8 v = image e 4 (halves e v).
Proof.
  unfold image. pose proof (le_bytes_app 4 4 v) as E. change (4 + 4) with 8 in E. change (2 ^ (8 * N.of_nat 4))%N with (2 ^ 32)%N in E.
  pose proof (le_bytes_mod 4 v) as E4. change (2 ^ (8 * N.of_nat 4))%N with (2 ^ 32)%N in E4.
  destruct e; unfold mem, halves; cbn [map concat]; rewrite E, app_nil_r, E4; [|reflexivity]. now rewrite rev_app_distr.
Qed.
Lemma image_halves e ws : image e 8 ws = image e 4 (flat_map (halves e) ws).
Proof.
  induction ws as [|w ws IH]; [reflexivity|]. cbn [flat_map]. rewrite image_app, <- IH, <- mem_halves. reflexivity.
Qed.

Definition bounded (size : nat) (ws : list N) : Prop := Forall (fun v => (v < 2 ^ (8 * N.of_nat size))%N) ws.
Lemma halves_bounded e v : (v < 2 ^ (8 * N.of_nat 8))%N -> bounded 4 (halves e v).
Proof.
  intros H. change (2 ^ (8 * N.of_nat 8))%N with (2 ^ 32 * 2 ^ 32)%N in H. unfold bounded. change (2 ^ (8 * N.of_nat 4))%N with (2 ^ 32)%N.
  assert (A : (v mod 2 ^ 32 < 2 ^ 32)%N) by (apply N.mod_upper_bound; discriminate).
  assert (B : (v / 2 ^ 32 < 2 ^ 32)%N) by (apply N.div_lt_upper_bound; [discriminate|exact H]).
  destruct e; cbn [halves]; repeat (apply Forall_cons; [assumption|]); apply Forall_nil.
Qed.
Lemma bounded_flat {X} size (f : X -> list N) l : (forall x, In x l -> bounded size (f x)) -> bounded size (flat_map f l).
Proof. intros H. apply Forall_forall. intros v Hv. apply in_flat_map in Hv as (x & Hx & Hv). specialize (H x Hx). eapply Forall_forall in H; eauto. Qed.
Lemma halves_sum e ws : nsum (flat_map (halves e) ws) = nsum (flat_map (parts 8) ws).
Proof.
  induction ws as [|w ws IH]; [reflexivity|]. cbn [flat_map]. rewrite !nsum_app, IH. f_equal.
  destruct e; unfold halves, parts, nsum; cbn [Nat.eqb fold_right]; lia.
Qed.

Lemma add_words_ok e size ws done : size = 4 \/ size = 8 -> bounded size ws ->
  add_words e (image e size ws) (sum_of done) = sum_of (done ++ flat_map (parts size) ws).
Proof.
  intros Hs HB. unfold add_words. destruct Hs as [-> | ->].
  - rewrite image_length, Nat.mul_comm, Nat.div_mul by discriminate.
    pose proof (unimage_image e 4 (length ws) ws [] (conj eq_refl HB)) as E. rewrite app_nil_r in E. rewrite E.
    rewrite add32_more. f_equal. f_equal. clear. induction ws as [|w ws IH]; [reflexivity|]. cbn. now rewrite <- IH.
  - rewrite image_halves. set (hs := flat_map (halves e) ws). rewrite image_length, Nat.mul_comm, Nat.div_mul by discriminate.
    assert (HH : bounded 4 hs).
    { apply bounded_flat. intros v Hv. apply halves_bounded. unfold bounded in HB. rewrite Forall_forall in HB. now apply HB. }
    pose proof (unimage_image e 4 (length hs) hs [] (conj eq_refl HH)) as E. rewrite app_nil_r in E. rewrite E.
    rewrite add32_more. unfold sum_of. fold (nsum (done ++ hs)). fold (nsum (done ++ flat_map (parts 8) ws)).
    rewrite !nsum_app. unfold hs. now rewrite halves_sum.
Qed.

(** ** Filling a gauge field *)
Section Fill.
  Context {A : Type}.
  Lemma gset_eq (u : @gauge A) dd q i m : gset u dd q i m dd q i = m.
  Proof. unfold gset. now rewrite !Nat.eqb_refl. Qed.
  Lemma gset_ne (u : @gauge A) dd q i m dd' q' i' : (dd', q', i') <> (dd, q, i) -> gset u dd q i m dd' q' i' = u dd' q' i'.
  Proof.
    intros H. unfold gset. destruct (Nat.eqb_spec dd' dd), (Nat.eqb_spec q' q), (Nat.eqb_spec i' i); cbn [andb]; auto. congruence.
  Qed.
  Definition key := (nat * nat * nat)%type.
  Definition gput (u : @gauge A) (k : key) (m : @cmatrix A) : gauge := gset u (fst (fst k)) (snd (fst k)) (snd k) m.
  Fixpoint gfill {X} (kf : X -> key) (mf : X -> @cmatrix A) (xs : list X) (u : @gauge A) : gauge :=
    match xs with [] => u | x :: r => gfill kf mf r (gput u (kf x) (mf x)) end.
  Lemma gfill_other {X} (kf : X -> key) mf xs : forall u dd q i, ~ In (dd, q, i) (map kf xs) -> gfill kf mf xs u dd q i = u dd q i.
  Proof.
    induction xs as [|x xs IH]; intros u dd q i H; [reflexivity|]. cbn [gfill map] in *. rewrite IH by (intros X1; apply H; now right).
    unfold gput. apply gset_ne. intros E. apply H. left. destruct (kf x) as [[? ?] ?]. cbn in E. now rewrite E.
  Qed.
  Lemma gfill_hit {X} (kf : X -> key) mf xs : NoDup (map kf xs) -> forall u x dd q i, In x xs -> kf x = (dd, q, i) ->
    gfill kf mf xs u dd q i = mf x.
  Proof.
    induction xs as [|y xs IH]; intros ND u x dd q i Hx E; [destruct Hx|]. cbn [map] in ND. inversion ND as [|? ? NI ND']; subst. cbn [gfill].
    destruct Hx as [->|Hx].
    - rewrite gfill_other by now rewrite <- E. unfold gput. rewrite E. apply gset_eq.
    - now apply (IH ND').
  Qed.
End Fill.

Section Archive.
  Context {A : Type} (rO : A) (radd rmul rsub : A -> A -> A).
  Context (narrow : A -> N) (cast : nat -> N -> A).
  Variables (e : endian) (Nd : nat).

  Definition mat_ok (mat_size : nat) : Prop := mat_size = 12 \/ mat_size = 18.

  (** ** Writing *)
  Lemma link_words_ok mat_size m : mat_ok mat_size ->
    link_words narrow mat_size m = Val (map narrow (numbers (rows_of mat_size) m)).
  Proof. intros [-> | ->]; reflexivity. Qed.
  Lemma numbers_length mat_size (m : @cmatrix A) : mat_ok mat_size -> length (numbers (rows_of mat_size) m) = mat_size.
  Proof. intros [-> | ->]; reflexivity. Qed.

  Definition words_of mat_size (m : @cmatrix A) : list N := map narrow (numbers (rows_of mat_size) m).
  Lemma site_words_ok mat_size u q i : mat_ok mat_size ->
    site_words narrow Nd mat_size u q i = Val (flat_map (fun dd => words_of mat_size (u dd q i)) (seq 0 Nd)).
  Proof.
    intros H. unfold site_words. rewrite (mapM_Val _ (fun dd => words_of mat_size (u dd q i))) by (intros; now apply link_words_ok).
    cbn [bind]. now rewrite flat_map_concat_map.
  Qed.

  Theorem checksum_ok b mat_size u : build_ok b -> mat_ok mat_size ->
    computeChecksum narrow Nd b mat_size u = Val (sum_of (all_words b Nd (fun dd c => words_of mat_size (link_at b u dd c)))).
  Proof.
    intros HB HM. unfold computeChecksum. replace ((mat_size =? 12) || (mat_size =? 18)) with true by (destruct HM; subst; reflexivity).
    set (lay := lay_of b). set (W := fun c => flat_map (fun dd => words_of mat_size (link_at b u dd c)) (seq 0 Nd)).
    assert (HL : layout_ok lay) by now apply lay_ok.
    rewrite (mapM_Val _ (fun q => sum_of (flat_map (fun i => W (l_coord lay q i)) (seq 0 (l_sites lay))))).
    - cbn [bind]. rewrite add32_sum.
      rewrite <- (map_map (fun q => flat_map (fun i => W (l_coord lay q i)) (seq 0 (l_sites lay))) sum_of).
      rewrite sum_of_sums. f_equal. unfold sum_of. f_equal. rewrite <- flat_map_concat_map.
      change (fold_right N.add 0%N) with nsum.
      unfold all_words. fold W.
      assert (E : nsum (flat_map W (site_order b)) = total 0%N N.add (map (fun c => nsum (W c)) (site_order b))).
      { rewrite flat_map_concat_map, nsum_concat, map_map. reflexivity. }
      change (fun c => flat_map (fun dd => words_of mat_size (link_at b u dd c)) (seq 0 Nd)) with W.
      rewrite E. rewrite <- (total_perm N_monoid (map (fun c => nsum (W c)) (coords (build_size b))) (map (fun c => nsum (W c)) (site_order b))) by (apply Permutation_map, order_perm, HB).
      rewrite <- (box_sum_coords N_monoid). change (build_size b) with (l_size lay). rewrite <- (all_nodes_sum N_monoid lay) by exact HL.
      rewrite flat_map_concat_map, nsum_concat, map_map. unfold total at 1. unfold nsum at 1. f_equal. apply map_ext. intros q.
      rewrite flat_map_concat_map, nsum_concat, map_map. reflexivity.
    - intros q Hq. apply in_seq in Hq. rewrite (mapM_Val _ (fun i => W (l_coord lay q i))).
      + cbn [bind]. rewrite add32_sum. now rewrite flat_map_concat_map.
      + intros i Hi. apply in_seq in Hi. rewrite site_words_ok by exact HM. f_equal. unfold W, link_at. fold lay.
        destruct (lay_inv lay HL q i) as [-> ->]; [lia|lia|reflexivity].
  Qed.

  Lemma words_site_ok mat_size m : mat_ok mat_size -> (forall x, (narrow x < 2 ^ 32)%N) -> site_ok 4 mat_size (words_of mat_size m).
  Proof.
    intros H HN. split; [unfold words_of; rewrite map_length; now apply numbers_length|]. apply Forall_forall. intros v Hv. apply in_map_iff in Hv as (x & <- & _). apply HN.
  Qed.
  Lemma flat_site_ok size n (f : nat -> list N) l : (forall dd, In dd l -> site_ok size n (f dd)) -> site_ok size (n * length l) (flat_map f l).
  Proof.
    intros H. induction l as [|x l IH]; [split; [cbn; lia|constructor]|]. cbn [flat_map length].
    destruct (H x) as [L1 B1]; [now left|]. destruct IH as [L2 B2]; [intros; apply H; now right|].
    split; [rewrite app_length; lia|]. apply Forall_app. auto.
  Qed.

  Theorem write_payload_ok b mat_size u st : build_ok b -> mat_ok mat_size -> (forall x, (narrow x < 2 ^ 32)%N) -> writable st ->
    write_payload narrow e Nd b mat_size u st = Val (emit (be 4 (all_words b Nd (fun dd c => words_of mat_size (link_at b u dd c)))) st).
  Proof.
    intros HB HM HN (W1 & W2 & W3).
    set (bs := be 4 _).
    assert (F : s_fail (emit bs st) = false) by (apply (emit_wrote bs st); unfold writable; auto).
    assert (X : forall r, r = Val (emit bs st) -> bind r (fun st' : stream => if s_fail st' then Abort else Val st') = Val (emit bs st)).
    { intros r ->. cbn [bind]. now rewrite F. }
    assert (Ebs : bs = concat (map (fun c => be 4 (flat_map (fun dd => words_of mat_size (link_at b u dd c)) (seq 0 Nd))) (site_order b))).
    { unfold bs, all_words. change (be 4) with (image BigE 4). rewrite image_flat. now rewrite flat_map_concat_map. }
    unfold write_payload. destruct b as [k L|grid k M L]; apply X; clear X; rewrite Ebs.
    - rewrite (write_all_ok _ (fun p => be 4 (words_of mat_size (link_at (Single k L) u (snd p) (crt (lay_of (Single k L)) (fst p)))))).
      + f_equal. f_equal. rewrite <- order_crt by exact HB. rewrite vol_volume, <- flat_map_concat_map, list_prod_flat, flat_map_flat_map.
        rewrite map_map, <- flat_map_concat_map. apply flat_map_ext_in. intros n _. rewrite flat_map_map.
        change (be 4) with (image BigE 4). rewrite image_flat. reflexivity.
      + apply Forall_forall. intros [n dd] _ st' _. cbn [fst snd]. rewrite link_words_ok by exact HM. cbn [bind].
        rewrite write_word1; [reflexivity|apply swappable4|]. now apply words_site_ok.
      + exact W2.
    - rewrite (write_all_ok _ (fun n => be 4 (flat_map (fun dd => words_of mat_size (link_at (Multi grid k M L) u dd (crt (lay_of (Multi grid k M L)) n))) (seq 0 Nd)))).
      + f_equal. f_equal. rewrite <- order_crt by exact HB. rewrite vol_volume, map_map. reflexivity.
      + apply Forall_forall. intros n _ st' _. rewrite site_words_ok by exact HM. cbn [bind].
        rewrite write_word1; [reflexivity|apply swappable4|].
        pose proof (flat_site_ok 4 mat_size (fun dd => words_of mat_size (link_at (Multi grid k M L) u dd (crt (lay_of (Multi grid k M L)) n))) (seq 0 Nd)) as S.
        rewrite seq_length in S. apply S. intros. now apply words_site_ok.
      + exact W2.
  Qed.

  (** ** Reading *)
  Notation unpack' := (unpack rO radd rmul rsub).
  Definition matrix_of (mat_size : nat) (l : list A) : @cmatrix A :=
    match unpack' mat_size l with Val m => m | _ => fun _ _ => (rO, rO) end.
  Lemma unpack_val mat_size l : mat_ok mat_size -> length l = mat_size -> unpack' mat_size l = Val (matrix_of mat_size l).
  Proof.
    intros [-> | ->] H.
    - do 12 (destruct l as [|? l]; [discriminate|]). destruct l; [reflexivity|discriminate].
    - do 18 (destruct l as [|? l]; [discriminate|]). destruct l; [reflexivity|discriminate].
  Qed.
  Lemma matrix_of_numbers mat_size l : mat_ok mat_size -> length l = mat_size ->
    numbers (rows_of mat_size) (matrix_of mat_size l) = l.
  Proof.
    intros [-> | ->] H.
    - do 12 (destruct l as [|? l]; [discriminate|]). destruct l; [reflexivity|discriminate].
    - do 18 (destruct l as [|? l]; [discriminate|]). destruct l; [reflexivity|discriminate].
  Qed.

  Lemma enough a b st : ready st (a ++ b) -> too_short (length a) st = false.
  Proof. intros (F & _ & pre & D & L). unfold too_short. rewrite F, D, !app_length. apply Nat.ltb_ge. lia. Qed.

  Section Read.
    Variables (mat_size fs : nat).
    Hypothesis HM : mat_ok mat_size.
    Hypothesis Hfs : fs = 4 \/ fs = 8.
    Let swap : swappable fs. Proof. destruct Hfs; subst; cbn; tauto. Qed.
    Variable w : nat -> list nat -> list N.

    Definition mat (dd : nat) (c : list nat) : @cmatrix A := matrix_of mat_size (map (cast fs) (w dd c)).

    Lemma unpack_words dd c : site_ok fs mat_size (w dd c) -> unpack' mat_size (map (cast fs) (w dd c)) = Val (mat dd c).
    Proof. intros [H _]. apply unpack_val; [exact HM|]. now rewrite map_length. Qed.

    Lemma read_links_ok k L : forall ps u done rest st,
      (forall n dd, In (n, dd) ps -> site_ok fs mat_size (w dd (crtesn k n L))) ->
      ready st (be fs (flat_map (fun p => w (snd p) (crtesn k (fst p) L)) ps) ++ rest) ->
      read_links rO radd rmul rsub cast e k L mat_size fs ps u (sum_of done) st
      = Val (gfill (fun p => (snd p, 0, linearSiteIndex1 k L (crtesn k (fst p) L))) (fun p => mat (snd p) (crtesn k (fst p) L)) ps u,
             sum_of (done ++ flat_map (parts fs) (flat_map (fun p => w (snd p) (crtesn k (fst p) L)) ps)),
             consume (be fs (flat_map (fun p => w (snd p) (crtesn k (fst p) L)) ps)) st).
    Proof.
      induction ps as [|[n dd] ps IH]; intros u done rest st HW HR; cbn [read_links flat_map gfill] in *.
      - rewrite app_nil_r. unfold be. cbn [map concat]. rewrite consume_nil; [reflexivity|apply HR].
      - cbn [fst snd] in *. pose proof (HW n dd (or_introl eq_refl)) as H0.
        change (be fs) with (image BigE fs) in *. rewrite image_app, <- app_assoc in HR.
        replace (too_short (fs * mat_size) st) with false.
        2:{ symmetry. rewrite <- (enough _ _ _ HR), image_length. now destruct H0 as [-> _]. }
        rewrite (read_word1 e fs mat_size (w dd (crtesn k n L)) _ st swap H0 HR). cbn [bind].
        pose proof (unimage_image e fs mat_size _ [] H0) as U. rewrite app_nil_r in U. rewrite U.
        rewrite unpack_words by exact H0. cbn [bind]. rewrite add_words_ok by (auto; apply H0).
        rewrite (IH _ _ rest); [|intros; apply HW; now right|now apply consume_ready].
        rewrite <- app_assoc, <- flat_map_app, image_app, <- consume_app. reflexivity.
    Qed.

    Definition site_w (c : list nat) : list N := flat_map (fun dd => w dd c) (seq 0 Nd).
    Lemma site_w_ok c : (forall dd, dd < Nd -> site_ok fs mat_size (w dd c)) -> site_ok fs (mat_size * Nd) (site_w c).
    Proof.
      intros H. pose proof (flat_site_ok fs mat_size (fun dd => w dd c) (seq 0 Nd)) as S. rewrite seq_length in S. apply S.
      intros dd Hd. apply in_seq in Hd. apply H. lia.
    Qed.

    Lemma read_input_ok lay : forall ns buf input done rest st,
      (forall n dd, In n ns -> dd < Nd -> site_ok fs mat_size (w dd (crt lay n))) ->
      ready st (be fs (flat_map site_w (map (crt lay) ns)) ++ rest) ->
      read_input e Nd lay mat_size fs ns buf input (sum_of done) st
      = Val (fill input (map (place lay) (map (crt lay) ns)) (map (fun c => image e fs (site_w c)) (map (crt lay) ns)),
             sum_of (done ++ flat_map (parts fs) (flat_map site_w (map (crt lay) ns))),
             consume (be fs (flat_map site_w (map (crt lay) ns))) st).
    Proof.
      induction ns as [|n ns IH]; intros buf input done rest st HW HR; cbn [read_input map flat_map fill] in *.
      - rewrite app_nil_r. unfold be. cbn [map concat]. rewrite consume_nil; [reflexivity|apply HR].
      - assert (H0 : site_ok fs (mat_size * Nd) (site_w (crt lay n))) by (apply site_w_ok; intros; apply HW; auto; now left).
        change (be fs) with (image BigE fs) in *. rewrite image_app, <- app_assoc in HR.
        unfold read_over. replace (too_short (fs * (mat_size * Nd)) st) with false.
        2:{ symmetry. rewrite <- (enough _ _ _ HR), image_length. now destruct H0 as [-> _]. }
        rewrite (read_word1 e fs (mat_size * Nd) (site_w (crt lay n)) _ st swap H0 HR). cbn [bind].
        rewrite add_words_ok by (auto; apply H0).
        rewrite (IH _ _ _ rest); [|intros; apply HW; auto; now right|now apply consume_ready].
        rewrite <- app_assoc, <- flat_map_app, image_app, <- consume_app. reflexivity.
    Qed.

    Lemma skip_links c dd : dd < Nd -> (forall d, d < Nd -> site_ok fs mat_size (w d c)) ->
      exists post, skipn (fs * mat_size * dd) (image e fs (site_w c)) = image e fs (w dd c) ++ post.
    Proof.
      intros Hd HW. unfold site_w. replace Nd with (dd + S (Nd - S dd)) by lia. rewrite seq_app, flat_map_app, image_app.
      rewrite skipn_app_l.
      - cbn [Nat.add seq flat_map]. rewrite image_app. eauto.
      - rewrite image_length. destruct (flat_site_ok fs mat_size (fun d => w d c) (seq 0 dd)) as [E _].
        + intros d Hi. apply in_seq in Hi. apply HW. lia.
        + rewrite E, seq_length. lia.
    Qed.

    Lemma convert_ok lay (input : field) : forall ps u,
      (forall q i dd, In (q, i, dd) ps -> dd < Nd /\ input q i = image e fs (site_w (l_coord lay q i)) /\
         forall d, d < Nd -> site_ok fs mat_size (w d (l_coord lay q i))) ->
      convert rO radd rmul rsub cast e Nd mat_size fs ps input u
      = Val (gfill (fun p => (snd p, fst (fst p), snd (fst p))) (fun p => mat (snd p) (l_coord lay (fst (fst p)) (snd (fst p)))) ps u).
    Proof.
      induction ps as [|[[q i] dd] ps IH]; intros u H; cbn [convert gfill]; [reflexivity|].
      destruct (H q i dd (or_introl eq_refl)) as (Hd & HI & HW). rewrite HI, image_length. destruct (site_w_ok _ HW) as [-> _].
      rewrite Nat.mul_assoc, Nat.eqb_refl. destruct (skip_links _ dd Hd HW) as [post ->].
      rewrite unimage_image by now apply HW. rewrite unpack_words by now apply HW. cbn [bind].
      rewrite IH by (intros; apply H; now right). reflexivity.
    Qed.

    Theorem read_payload_ok b u rest st : build_ok b ->
      (forall dd c, dd < Nd -> in_lattice (build_size b) c -> site_ok fs mat_size (w dd c)) ->
      ready st (be fs (all_words b Nd w) ++ rest) ->
      exists G, read_payload rO radd rmul rsub cast e Nd b mat_size fs u st
        = Val (G, sum_of (flat_map (parts fs) (all_words b Nd w)), consume (be fs (all_words b Nd w)) st) /\
        forall dd c, dd < Nd -> in_lattice (build_size b) c -> link_at b G dd c = mat dd c.
    Proof.
      intros HB HW HR. unfold read_payload. replace ((fs =? 4) || (fs =? 8)) with true by (destruct Hfs; subst; reflexivity).
      change 0%N with (sum_of []) at 1 2.
      destruct b as [k L|grid k M L].
      - set (b := Single k L) in *. set (ps := list_prod (seq 0 (vol L)) (seq 0 Nd)).
        assert (EW : flat_map (fun p => w (snd p) (crtesn k (fst p) L)) ps = all_words b Nd w).
        { unfold all_words. rewrite <- order_crt by exact HB. unfold ps. rewrite vol_volume, list_prod_flat, flat_map_flat_map, flat_map_map.
          apply flat_map_ext_in. intros n _. rewrite flat_map_map. reflexivity. }
        assert (HP : forall n dd, In (n, dd) ps -> n < volume L /\ dd < Nd).
        { intros n dd H. apply in_prod_iff in H as [H1 H2]. apply in_seq in H1, H2. rewrite vol_volume in H1. lia. }
        rewrite (read_links_ok k L ps u [] rest st).
        + rewrite EW. cbn [app]. eexists. split; [reflexivity|]. intros dd c Hd Hc.
          assert (Hc' : In c (site_order b)) by (apply order_in; auto). rewrite <- order_crt in Hc' by exact HB.
          apply in_map_iff in Hc' as (n & <- & Hn).
          unfold link_at. rewrite (gfill_hit _ _ ps) with (x := (n, dd)); [reflexivity| | |].
          * apply NoDup_map_in; [apply NoDup_list_prod; apply seq_NoDup|]. intros [n1 d1] [n2 d2] H1 H2 E. cbn [fst snd] in E.
            apply HP in H1, H2. injection E as E1 E2. subst d2. f_equal.
            destruct H1 as [H1 _], H2 as [H2 _].
            apply (crt_inj b); auto.
            apply (place_inj b); auto; try (apply crt_in; auto). unfold place. cbn [lay_of b scalar_layout l_node l_lin crt l_kind l_size].
            f_equal. exact E2.
          * apply in_prod; [rewrite vol_volume; exact Hn|apply in_seq; lia].
          * reflexivity.
        + intros n dd H. apply HP in H as [H1 H2]. apply HW; [exact H2|]. apply (crt_in b n HB H1).
        + rewrite EW. exact HR.
      - set (b := Multi grid k M L) in *. set (lay := par_layout k M L).
        assert (EW : flat_map site_w (map (crt lay) (seq 0 (vol L))) = all_words b Nd w).
        { unfold all_words. rewrite <- order_crt by exact HB. now rewrite vol_volume. }
        assert (HL : layout_ok lay) by (apply (lay_ok b), HB).
        rewrite (read_input_ok lay (seq 0 (vol L)) _ _ [] rest).
        + rewrite EW. cbn [bind app]. set (input := fill _ _ _).
          set (ps := list_prod (list_prod (seq 0 (l_nodes lay)) (seq 0 (l_sites lay))) (seq 0 Nd)).
          assert (HP : forall q i dd, In (q, i, dd) ps -> q < l_nodes lay /\ i < l_sites lay /\ dd < Nd).
          { intros q i dd H. apply in_prod_iff in H as [H H3]. apply in_prod_iff in H as [H1 H2]. apply in_seq in H1, H2, H3. lia. }
          rewrite (convert_ok lay input ps u).
          * cbn [bind]. eexists. split; [reflexivity|]. intros dd c Hd Hc.
            destruct (lay_fwd lay HL c Hc) as (Q & I & EC).
            unfold link_at. rewrite (gfill_hit _ _ ps) with (x := (l_node lay c, l_lin lay c, dd)).
            -- cbn [fst snd]. now rewrite EC.
            -- apply NoDup_map_in; [apply NoDup_list_prod; [apply NoDup_list_prod|]; apply seq_NoDup|].
               intros [[q1 i1] d1] [[q2 i2] d2] _ _ E. cbn [fst snd] in E. congruence.
            -- apply in_prod; [apply in_prod|]; apply in_seq; lia.
            -- reflexivity.
          * intros q i dd H. apply HP in H as (Hq & Hi & Hd). split; [exact Hd|].
            assert (Hc : in_lattice (build_size b) (l_coord lay q i)) by (apply (lay_in lay HL q i); auto).
            split; [|intros d Hd'; apply HW; auto].
            destruct (lay_inv lay HL q i Hq Hi) as [Eq Ei].
            unfold input. rewrite <- Eq at 1. rewrite <- Ei at 2.
            rewrite (fill_hit (fun c => image e fs (site_w c)) lay); [reflexivity| |].
            -- pose proof (places_nodup b (fun _ => true) 0 (volume (build_size b)) HB (le_n _)) as ND. rewrite filter_true, Nat.sub_0_r in ND.
               rewrite vol_volume. exact ND.
            -- rewrite vol_volume. change (In (l_coord lay q i) (map (crt (lay_of b)) (seq 0 (volume (build_size b))))).
               rewrite order_crt by exact HB. now apply order_in.
        + intros n dd Hn Hd. apply HW; [exact Hd|]. apply in_seq in Hn. rewrite vol_volume in Hn. apply (crt_in b n HB). cbn. lia.
        + rewrite EW. exact HR.
    Qed.
  End Read.
End Archive.

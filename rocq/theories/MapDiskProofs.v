(** Proofs about the on-disk map object: the pieces of the file. *)
From Coq Require Import List Arith NArith ZArith Bool Permutation Lia.
From Coq Require Import ZifyBool ZifyNat ZifyN.
From Verif Require Import Base CrcModel IoModel CrcSpec IoSpec CrcProofs SwapProofs IoProofs MapObjModel MapObjSpec MapObjProofs.
Import ListNotations.
Local Open Scope N_scope.
Local Arguments crc32 : simpl never.

(** ** Bytes of objects *)
Lemma bytes_ok_app a b : bytes_ok (a ++ b) <-> bytes_ok a /\ bytes_ok b.
Proof. apply Forall_app. Qed.
Lemma bytes_ok_concat l : Forall bytes_ok l -> bytes_ok (concat l).
Proof. induction 1; cbn [concat]; [constructor|]. now apply bytes_ok_app. Qed.
Lemma int_bytes_ok n : bytes_ok (int_bytes n). Proof. apply mem_ok. Qed.
Lemma int_bytes_length n : length (int_bytes n) = 4%nat. Proof. apply mem_length. Qed.
Lemma forall_map_bytes {A} (f : A -> list N) l : Forall (fun a => bytes_ok (f a)) l -> bytes_ok (concat (map f l)).
Proof. intros H. apply bytes_ok_concat, Forall_map. exact H. Qed.
Lemma enc_bytes klt t : forall v, has_type klt t v -> bytes_ok (enc t v).
Proof.
  induction t as [size| |max|t IH|d t IH|t IH|k IHk t IHt|a IHa b IHb]; intros v H; inversion H; subst; cbn [enc].
  - apply mem_ok.
  - apply bytes_ok_app. split; [apply int_bytes_ok|assumption].
  - apply bytes_ok_app. split; [assumption|]. repeat constructor.
  - apply bytes_ok_app. split; [apply int_bytes_ok|]. apply forall_map_bytes. eapply Forall_impl; [|eassumption]. exact IH.
  - apply bytes_ok_app. split; [apply forall_map_bytes, Forall_forall; intros; apply int_bytes_ok|].
    apply forall_map_bytes. eapply Forall_impl; [exact IH|]. apply (elements_typed klt); assumption.
  - rewrite !bytes_ok_app. split; [apply int_bytes_ok|]. split; [apply forall_map_bytes, Forall_forall; intros; apply int_bytes_ok|].
    apply forall_map_bytes. eapply Forall_impl; [|eassumption]. exact IH.
  - rewrite !bytes_ok_app. split; [apply int_bytes_ok|]. apply forall_map_bytes. rewrite Forall_forall in *. intros p Hp.
    apply bytes_ok_app. split; auto.
  - apply bytes_ok_app. auto.
Qed.

(** ** A file open for reading and writing *)
Definition file_at (st : stream) (d : list N) (p : nat) : Prop :=
  s_joint st = true /\ s_fail st = false /\ s_data st = d /\ s_get st = p /\ s_put st = p.

Lemma file_at_coherent st d p : file_at st d p -> coherent st.
Proof. intros (_ & _ & _ & G & P) _. congruence. Qed.
Lemma file_at_open d : file_at (file_readwriter d) d 0.
Proof. repeat split. Qed.
Lemma file_at_emit st d p bs : file_at st d p -> file_at (emit bs st) (overwrite d p bs) (p + length bs).
Proof.
  intros (J & F & D & G & P). destruct (emit_fields bs st F) as (EJ & ED & EP & EF & EG & _).
  rewrite J in EG. repeat split; congruence.
Qed.
Lemma file_at_consume st d p bs : file_at st d p -> file_at (consume bs st) d (p + length bs).
Proof. intros (J & F & D & G & P). unfold consume, add_crc, with_crc, at_get. repeat split; cbn; rewrite ?J; congruence. Qed.
Lemma file_at_reset st d p : file_at st d p -> file_at (resetChecksum st) d p.
Proof. intros (J & F & D & G & P). unfold resetChecksum, with_crc. repeat split; cbn; congruence. Qed.
Lemma file_at_seek st d p q : file_at st d p -> file_at (readwriter_seek q st) d q.
Proof. intros (J & F & D & G & P). unfold readwriter_seek, with_crc, at_get. repeat split; cbn; rewrite ?J; congruence. Qed.
Lemma file_at_seek_to st d p q : file_at st d p -> file_at (seek_to (Z.of_nat q) st) d q.
Proof.
  intros H. unfold seek_to. destruct (Z.ltb_spec (Z.of_nat q) 0); [lia|]. rewrite Nat2Z.id. eapply file_at_seek, H.
Qed.
Lemma file_at_end st d p : file_at st d p -> file_at (readwriter_seekEnd 0 st) d (length d).
Proof.
  intros H. unfold readwriter_seekEnd. pose proof H as (_ & _ & -> & _). rewrite Nat.sub_0_r. eapply file_at_seek, H.
Qed.
Lemma file_at_position st d p : file_at st d p -> currentPosition st = Z.of_nat p.
Proof. intros (_ & F & _ & G & _). unfold currentPosition. now rewrite F, G. Qed.
Lemma crc_emit st bs c : s_crc st = Some c -> s_fail st = false -> getChecksum (emit bs st) = Val (crc32 c (Some bs)).
Proof. intros C F. unfold getChecksum. destruct (emit_fields bs st F) as (_ & _ & _ & _ & _ & ->). now rewrite C. Qed.
Lemma crc_consume st bs c : s_crc st = Some c -> getChecksum (consume bs st) = Val (crc32 c (Some bs)).
Proof. intros C. unfold getChecksum, consume, add_crc, with_crc, at_get. cbn. now rewrite C. Qed.

(** [bs] is found at position [p] of [d]. *)
Definition at_ (d : list N) (p : nat) (bs : list N) : Prop :=
  forall i, (i < length bs)%nat -> nth_error d (p + i) = nth_error bs i.
Definition same_upto (B : nat) (d d' : list N) : Prop := forall i, (i < B)%nat -> nth_error d' i = nth_error d i.

Lemma at_app d p a b : at_ d p (a ++ b) <-> at_ d p a /\ at_ d (p + length a) b.
Proof.
  unfold at_. rewrite app_length. split.
  - intros H. split; intros i Hi; [rewrite H by lia; now rewrite nth_error_app1 by lia|].
    replace (p + length a + i)%nat with (p + (length a + i))%nat by lia. rewrite H by lia. rewrite nth_error_app2 by lia. f_equal. lia.
  - intros [H1 H2] i Hi. destruct (Nat.lt_ge_cases i (length a)).
    + rewrite nth_error_app1 by lia. apply H1. lia.
    + rewrite nth_error_app2 by lia. rewrite <- H2 by lia. f_equal. lia.
Qed.
Lemma nth_error_ext {A} (l : list A) : forall m, (forall i, nth_error l i = nth_error m i) -> l = m.
Proof.
  induction l as [|x l IH]; intros [|y m] H; [reflexivity|specialize (H 0%nat); discriminate|specialize (H 0%nat); discriminate|].
  pose proof (H 0%nat) as H0. cbn in H0. inversion H0; subst. f_equal. apply IH. intros i. exact (H (S i)).
Qed.
Lemma nth_error_firstn' {A} (l : list A) : forall n i, nth_error (firstn n l) i = if (i <? n)%nat then nth_error l i else None.
Proof.
  induction l as [|x l IH]; intros [|n] [|i]; cbn [firstn nth_error]; try reflexivity.
  - now destruct (_ <? _)%nat.
  - rewrite IH. destruct (Nat.ltb_spec i n), (Nat.ltb_spec (S i) (S n)); (reflexivity || lia).
Qed.
Lemma at_split d p bs : at_ d p bs -> (p <= length d)%nat -> d = firstn p d ++ bs ++ skipn (p + length bs) d.
Proof.
  intros H HP. apply nth_error_ext. intros i. pose proof (firstn_length p d).
  destruct (Nat.lt_ge_cases i p).
  - rewrite nth_error_app1 by lia. rewrite nth_error_firstn'. now destruct (Nat.ltb_spec i p); [|lia].
  - rewrite nth_error_app2 by lia. replace (length (firstn p d)) with p by lia. destruct (Nat.lt_ge_cases (i - p) (length bs)).
    + rewrite nth_error_app1 by lia. rewrite <- H by lia. f_equal. lia.
    + rewrite nth_error_app2 by lia. rewrite nth_error_skipn'. f_equal. lia.
Qed.
Lemma at_ready d p bs st : at_ d p bs -> bs <> [] -> file_at st d p -> exists rest, ready st (bs ++ rest).
Proof.
  intros H N (J & F & D & G & P).
  assert (p < length d)%nat.
  { destruct bs as [|b bs]; [congruence|]. specialize (H 0%nat ltac:(cbn; lia)). cbn in H. apply nth_error_Some. rewrite Nat.add_0_r in H.
    rewrite H. discriminate. }
  exists (skipn (p + length bs) d). split; [exact F|]. split; [intros _; congruence|]. exists (firstn p d).
  rewrite D, G, firstn_length. split; [apply at_split; [exact H|lia]|lia].
Qed.
Lemma at_end_of d p bs : at_ d p bs -> bs <> [] -> (p + length bs <= length d)%nat.
Proof.
  intros H N. destruct (Nat.le_gt_cases (p + length bs) (length d)) as [|L]; [assumption|].
  exfalso. destruct bs as [|b bs]; [congruence|]. set (l := b :: bs) in *.
  specialize (H (length l - 1)%nat ltac:(subst l; cbn; lia)).
  assert (nth_error l (length l - 1) <> None) by (apply nth_error_Some; subst l; cbn; lia).
  rewrite <- H in H0. apply nth_error_Some in H0. cbn [length] in *. subst l. cbn [length] in *. lia.
Qed.
Lemma at_same_upto B d d' p bs : same_upto B d d' -> at_ d p bs -> (p + length bs <= B)%nat -> at_ d' p bs.
Proof. intros S H L i Hi. rewrite S by lia. now apply H. Qed.
Lemma at_written d p bs : (p <= length d)%nat -> at_ (overwrite d p bs) p bs.
Proof.
  intros H i Hi. rewrite overwrite_data by exact H. pose proof (firstn_length p d). rewrite nth_error_app2 by lia.
  rewrite nth_error_app1 by lia. f_equal. lia.
Qed.
Lemma at_elsewhere d p bs q cs : (p <= length d)%nat -> at_ d q cs -> (q + length cs <= p \/ p + length bs <= q)%nat ->
  at_ (overwrite d p bs) q cs.
Proof. intros H A L i Hi. rewrite overwrite_outside by (auto; lia). now apply A. Qed.
Lemma overwrite_length d p bs : (p <= length d)%nat -> length (overwrite d p bs) = Nat.max (length d) (p + length bs).
Proof.
  intros H. rewrite overwrite_data, !app_length, firstn_length, skipn_length by exact H. lia.
Qed.
Lemma overwrite_upto d p bs B : (p <= length d)%nat -> (B <= p)%nat -> same_upto B d (overwrite d p bs).
Proof. intros H L i Hi. apply overwrite_outside; [exact H|lia]. Qed.
Lemma torn_upto B d d' n : same_upto B d d' -> (length d <= length d')%nat -> same_upto B d (torn d d' n).
Proof.
  intros S L i Hi. unfold torn. destruct (Nat.le_gt_cases n (length d')).
  - destruct (Nat.lt_ge_cases i n).
    + rewrite nth_error_app1 by (rewrite firstn_length; lia). rewrite nth_error_firstn'. destruct (Nat.ltb_spec i n); [auto|lia].
    + rewrite nth_error_app2 by (rewrite firstn_length; lia). rewrite nth_error_skipn', firstn_length. f_equal. lia.
  - rewrite firstn_all2, skipn_all2 by lia. rewrite app_nil_r. now apply S.
Qed.
Lemma same_upto_trans B a b c : same_upto B a b -> same_upto B b c -> same_upto B a c.
Proof. intros H1 H2 i Hi. rewrite H2, H1 by exact Hi. reflexivity. Qed.
Lemma same_upto_le B B' a b : (B' <= B)%nat -> same_upto B a b -> same_upto B' a b.
Proof. intros L H i Hi. apply H. lia. Qed.

(** ** Positions *)
Definition priv (e : endian) (p : nat) : N * N := if big_endian e then (0, N.of_nat p) else (N.of_nat p, 0).

Lemma wrap64_small z : (0 <= z < 2 ^ 63)%Z -> wrap64 z = z.
Proof.
  intros H. unfold wrap64. rewrite Z.mod_small; [lia|]. change (2 ^ 64)%Z with (2 * 2 ^ 63)%Z. lia.
Qed.
Lemma max_uint64_zero : max_uint64 = 0%Z. Proof. reflexivity. Qed.
Lemma to_private e p : N.of_nat p < 2 ^ 63 -> convertToPrivate DivGivesZero e (Z.of_nat p) = Val (priv e p).
Proof.
  intros H. unfold convertToPrivate, pos_div. rewrite max_uint64_zero. cbn [Z.eqb bind]. rewrite (Z.mod_small (Z.of_nat p)).
  - change (Z.to_N (0 mod 2 ^ 64)) with 0. replace (Z.to_N (Z.of_nat p)) with (N.of_nat p) by lia. reflexivity.
  - change (2 ^ 63) with 9223372036854775808 in H. change (2 ^ 64)%Z with 18446744073709551616%Z. lia.
Qed.
Lemma from_private e p : N.of_nat p < 2 ^ 63 -> convertFromPrivate e (priv e p) = Z.of_nat p.
Proof.
  intros H. assert (0 <= Z.of_N (N.of_nat p) < 2 ^ 63)%Z.
  { change (2 ^ 63) with 9223372036854775808 in H. change (2 ^ 63)%Z with 9223372036854775808%Z. lia. }
  unfold convertFromPrivate, priv. cbv zeta. rewrite max_uint64_zero.
  destruct (big_endian e); cbn [fst snd]; rewrite Z.mul_0_r; rewrite (wrap64_small (Z.of_N (N.of_nat p))) by assumption;
    change (wrap64 0) with 0%Z; rewrite Z.add_0_r, wrap64_small by assumption; lia.
Qed.
Lemma traps_undefined e z : convertToPrivate DivTraps e z = Undef.
Proof. reflexivity. Qed.

Lemma le_bytes_add n : forall m v, le_bytes (n + m) v = le_bytes n v ++ le_bytes m (v / 256 ^ N.of_nat n).
Proof.
  induction n as [|n IH]; intros m v; cbn [Nat.add le_bytes app].
  - change (256 ^ N.of_nat 0) with 1. now rewrite N.div_1_r.
  - rewrite IH. f_equal. f_equal. f_equal. rewrite N.div_div by (try discriminate; apply N.pow_nonzero; discriminate).
    now rewrite Nat2N.inj_succ, N.pow_succ_r'.
Qed.
Lemma le_bytes_0 n : le_bytes n 0 = repeat 0 n.
Proof. induction n; cbn [le_bytes repeat]; [reflexivity|]. f_equal. exact IHn. Qed.
Lemma priv_mem_16 e p : N.of_nat p < 2 ^ 63 -> priv_mem e (priv e p) = mem e 16 (N.of_nat p).
Proof.
  intros H. assert (E : le_bytes 16 (N.of_nat p) = le_bytes 8 (N.of_nat p) ++ le_bytes 8 0).
  { change 16%nat with (8 + 8)%nat. rewrite le_bytes_add. f_equal. rewrite N.div_small; [reflexivity|].
    change (2 ^ 63) with 9223372036854775808 in H. change (256 ^ N.of_nat 8) with 18446744073709551616. lia. }
  unfold priv_mem, priv. rewrite big_endian_spec. destruct e; cbn [mem fst snd].
  - rewrite E, rev_app_distr. reflexivity.
  - now rewrite E.
Qed.
Lemma priv_of_16 e p : N.of_nat p < 2 ^ 63 -> priv_of e (mem e 16 (N.of_nat p)) = priv e p.
Proof.
  intros H. rewrite <- priv_mem_16 by exact H. unfold priv_of, priv_mem.
  rewrite firstn_app_l, skipn_app_l by apply mem_length. 
  assert (fst (priv e p) < 2 ^ (8 * N.of_nat 8) /\ snd (priv e p) < 2 ^ (8 * N.of_nat 8)) as [A B].
  { change (2 ^ 63) with 9223372036854775808 in H. change (2 ^ (8 * N.of_nat 8)) with 18446744073709551616.
    unfold priv. destruct (big_endian e); cbn [fst snd]; lia. }
  rewrite !word_mem by assumption. now destruct (priv e p).
Qed.
Lemma swappable16 : swappable 16. Proof. cbn. tauto. Qed.
Lemma write_priv_ok e p st : N.of_nat p < 2 ^ 63 -> write_priv e (priv e p) st = Val (emit (mem BigE 16 (N.of_nat p)) st).
Proof.
  intros H. unfold write_priv. rewrite priv_mem_16 by exact H.
  pose proof (write_array_ok e 16 [N.of_nat p] [] st swappable16) as E. cbn [map concat length] in E. rewrite !app_nil_r in E.
  rewrite E. reflexivity.
Qed.
Lemma read_priv_ok e p rest st : N.of_nat p < 2 ^ 63 -> ready st (mem BigE 16 (N.of_nat p) ++ rest) ->
  read_priv e st = Val (priv e p, consume (mem BigE 16 (N.of_nat p)) st).
Proof.
  intros H HR. unfold read_priv. pose proof (read_array_ok e 16 [N.of_nat p] rest st swappable16) as E.
  cbn [map concat length] in E. rewrite !app_nil_r in E. rewrite E by exact HR. cbn [bind]. now rewrite priv_of_16.
Qed.

(** ** Header *)
Definition hdr0 (user : list N) : list N :=
  (int_bytes (length file_magic) ++ file_magic) ++ mem BigE 4 1 ++ (int_bytes (length user) ++ user).
Definition link_pos (user : list N) : nat := length file_magic + 4 + 4 + length user + 4.
Definition hdr (user : list N) (link : nat) : list N := hdr0 user ++ mem BigE 16 (N.of_nat link).
Lemma hdr0_length user : length (hdr0 user) = link_pos user.
Proof. unfold hdr0, link_pos. rewrite !app_length, !int_bytes_length, mem_length. lia. Qed.
Lemma hdr_length user link : length (hdr user link) = (link_pos user + 16)%nat.
Proof. unfold hdr. now rewrite app_length, hdr0_length, mem_length. Qed.
Lemma magic_ok : bytes_ok file_magic /\ int_size (length file_magic).
Proof. split; [repeat constructor|reflexivity]. Qed.
Lemma user_small user : user_ok user -> N.of_nat (link_pos user) < 2 ^ 63.
Proof.
  intros [_ H]. unfold int_size in H. unfold link_pos. change (length file_magic) with 29%nat.
  change (2 ^ 31) with 2147483648 in H. change (2 ^ 63) with 9223372036854775808. lia.
Qed.

Lemma write_header_ok e user : user_ok user ->
  exists st, write_header DivGivesZero e user (file_readwriter []) = Val st /\ file_at st (hdr user (link_pos user)) (link_pos user + 16).
Proof.
  intros HU. unfold write_header. destruct magic_ok as [M1 M2]. pose proof HU as [U1 U2].
  rewrite write_desc_ok by assumption. cbn [bind]. rewrite write_prim_ok by apply swappable4. cbn [bind].
  rewrite write_desc_ok by assumption. cbn [bind]. rewrite !emit_app.
  match goal with |- context [emit ?b (file_readwriter [])] => replace b with (hdr0 user) by (unfold hdr0; now rewrite <- !app_assoc) end.
  assert (F : file_at (emit (hdr0 user) (file_readwriter [])) (hdr0 user) (link_pos user)).
  { pose proof (file_at_emit _ _ _ (hdr0 user) (file_at_open [])) as H. rewrite hdr0_length in H. cbn [Nat.add] in H.
    rewrite overwrite_data, skipn_nil in H by (cbn; lia). cbn [firstn app] in H. now rewrite app_nil_r in H. }
  rewrite (file_at_position _ _ _ F), to_private by now apply user_small. cbn [bind].
  rewrite write_priv_ok by now apply user_small. eexists. split; [reflexivity|].
  pose proof (file_at_emit _ _ _ (mem BigE 16 (N.of_nat (link_pos user))) F) as H. rewrite mem_length in H.
  rewrite overwrite_data in H by (rewrite hdr0_length; lia). rewrite firstn_all2, skipn_all2, app_nil_r in H by (rewrite hdr0_length; lia).
  exact H.
Qed.

Lemma read_header_ok e user link d st : user_ok user -> N.of_nat link < 2 ^ 63 -> at_ d 0 (hdr user link) -> file_at st d 0 ->
  exists st', read_header e st = Val (user, priv e link, st') /\ file_at st' d (link_pos user + 16).
Proof.
  intros HU HL HA F0. unfold read_header. pose proof (file_at_seek _ _ _ 0 F0) as F. set (st0 := readwriter_seek 0 st) in *.
  destruct (at_ready d 0 _ st0 HA) as (rest & HR); [|exact F|].
  { intros X. apply (f_equal (@length N)) in X. rewrite hdr_length in X. cbn in X. lia. }
  destruct magic_ok as [M1 M2]. pose proof HU as [U1 U2].
  unfold hdr, hdr0 in HR. rewrite <- !app_assoc in HR. rewrite app_assoc in HR.
  erewrite read_desc_ok; [|exact M1|exact M2|exact HR]. cbn [bind]. rewrite string_eqb_refl. cbn [negb].
  apply consume_ready in HR. rewrite (read_prim_ok e 4 1 _ _ swappable4 eq_refl HR). cbn [bind].
  apply consume_ready in HR. rewrite app_assoc in HR. erewrite read_desc_ok; [|exact U1|exact U2|exact HR]. cbn [bind].
  apply consume_ready in HR. erewrite read_priv_ok; [|exact HL|exact HR]. cbn [bind]. eexists. split; [reflexivity|].
  rewrite !consume_app. replace (link_pos user + 16)%nat with (length (hdr user link)) by apply hdr_length.
  match goal with |- file_at (consume ?b _) _ _ => replace b with (hdr user link) by (unfold hdr, hdr0; now rewrite <- !app_assoc) end.
  exact (file_at_consume _ _ _ (hdr user link) F).
Qed.

(** ** Records *)
Definition crc_bytes (bs : list N) : list N := mem BigE 4 (crc32 0 (Some bs)).
Definition rec (bs : list N) : list N := bs ++ crc_bytes bs.
Lemma rec_length bs : length (rec bs) = (length bs + 4)%nat.
Proof. unfold rec, crc_bytes. now rewrite app_length, mem_length. Qed.
Lemma rec_nonempty bs : rec bs <> [].
Proof. intros X. apply (f_equal (@length N)) in X. rewrite rec_length in X. cbn in X. lia. Qed.
Lemma crc_small bs : bytes_ok bs -> crc32 0 (Some bs) < 2 ^ (8 * N.of_nat 4).
Proof. intros H. change (8 * N.of_nat 4) with 32. apply crc32_lt; [reflexivity|exact H]. Qed.

Lemma write_record_ok klt h tv v st d p : has_type klt tv v -> file_at st d p ->
  exists st', write_record tv h true v st = Val st' /\
    file_at st' (overwrite d p (rec (enc tv v))) (p + length (rec (enc tv v))).
Proof.
  intros HT F. apply file_at_reset in F. pose proof F as (_ & NF & _). unfold write_record.
  rewrite (write_val_ok klt) by (try exact HT; eapply file_at_coherent, F). cbn [bind].
  rewrite (crc_emit _ _ 0) by (reflexivity || exact NF). cbn [bind]. rewrite write_prim_ok by apply swappable4.
  eexists. split; [reflexivity|]. rewrite emit_app. change (mem BigE 4 (crc32 0 (Some (enc tv v)))) with (crc_bytes (enc tv v)).
  apply file_at_emit, F.
Qed.

(** reading a record, as get does *)
Lemma read_record_ok klt e tv v st d p : strict_order klt -> has_type klt tv v -> file_at st d p -> s_crc st = Some 0 -> at_ d p (rec (enc tv v)) ->
  exists st1 st2, read_val klt e tv st = Val (v, st1) /\ getChecksum st1 = Val (crc32 0 (Some (enc tv v))) /\
    read_prim e 4 st1 = Val (crc32 0 (Some (enc tv v)), st2) /\ file_at st2 d (p + length (rec (enc tv v))).
Proof.
  intros HK HT F C HA. destruct (at_ready _ _ _ _ HA (rec_nonempty _) F) as (rest & HR). unfold rec in HR. rewrite <- app_assoc in HR.
  do 2 eexists. split; [eapply (read_val_ok klt HK); [exact HT|exact HR]|]. split; [apply crc_consume, C|]. apply consume_ready in HR.
  split; [eapply read_prim_ok; [apply swappable4|apply crc_small, (enc_bytes klt), HT|apply HR]|].
  rewrite consume_app. change (mem BigE 4 (crc32 0 (Some (enc tv v)))) with (crc_bytes (enc tv v)). now apply file_at_consume.
Qed.

(** ** The key map in the file *)
Definition ebytes (p : list N * nat) : list N := (int_bytes (length (fst p)) ++ fst p) ++ mem BigE 16 (N.of_nat (snd p)).
Definition kbytes (l : list (list N * nat)) : list N := mem BigE 4 (N.of_nat (length l)) ++ concat (map ebytes l).
Definition privs (e : endian) (l : list (list N * nat)) : list (list N * (N * N)) := map (fun p => (fst p, priv e (snd p))) l.
Definition entry_ok (p : list N * nat) : Prop := bytes_ok (fst p) /\ int_size (length (fst p)) /\ N.of_nat (snd p) < 2 ^ 63.

Lemma write_all_map {A B} (w : B -> stream -> res stream) (g : A -> B) l : forall st,
  write_all w (map g l) st = write_all (fun a => w (g a)) l st.
Proof.
  induction l as [|a l IH]; intros st; cbn [map write_all]; [reflexivity|]. destruct (w (g a) st); cbn [bind]; auto.
Qed.
Lemma kbytes_ok l : Forall entry_ok l -> bytes_ok (kbytes l).
Proof.
  intros H. unfold kbytes. apply bytes_ok_app. split; [apply mem_ok|]. apply forall_map_bytes. eapply Forall_impl; [|exact H].
  intros p (B & _). unfold ebytes. rewrite !bytes_ok_app. split; [split; [apply int_bytes_ok|exact B]|apply mem_ok].
Qed.
Lemma count_ok {A} (l : list A) : N.of_nat (length l) < 2 ^ 32 -> N.of_nat (length l) mod 2 ^ 32 = N.of_nat (length l).
Proof. intros H. now apply N.mod_small. Qed.

Lemma write_map_ok e l st d p : Forall entry_ok l -> N.of_nat (length l) < 2 ^ 32 -> file_at st d p ->
  exists st', write_map e (privs e l) st = Val st' /\ file_at st' (overwrite d p (rec (kbytes l))) (p + length (rec (kbytes l))).
Proof.
  intros HE HL F. apply file_at_reset in F. pose proof F as (_ & NF & _). unfold write_map. unfold privs at 1. rewrite map_length, count_ok by exact HL.
  rewrite write_prim_ok by apply swappable4. cbn [bind]. unfold privs. rewrite write_all_map.
  rewrite (write_all_ok _ ebytes); [|eapply Forall_impl; [|exact HE]|apply emit_coherent; eapply file_at_coherent, F].
  - cbn [bind]. rewrite emit_app. fold (kbytes l). rewrite (crc_emit _ _ 0) by (reflexivity || exact NF). cbn [bind].
    rewrite write_prim_ok by apply swappable4. eexists. split; [reflexivity|]. rewrite emit_app. apply file_at_emit, F.
  - intros q (B & I & S) st' HC. cbn [fst snd]. rewrite write_desc_ok by assumption. cbn [bind]. rewrite write_priv_ok by exact S.
    now rewrite emit_app.
Qed.

Lemma fold_insert {A} (l : list (list N * A)) : forall m, NoDup (map fst l) -> (forall k, In k (map fst l) -> ~ In k (map fst m)) ->
  Permutation (fold_left (fun m p => umap_insert (fst p) (snd p) m) l m) (l ++ m).
Proof.
  induction l as [|[k a] l IH]; intros m ND HD; cbn [fold_left app]; [reflexivity|]. inversion ND; subst. cbn [fst snd].
  unfold umap_insert at 2. replace (umap_find k m) with (@None A).
  - eapply Permutation_trans; [apply IH; [assumption|]|].
    + intros k' Hk' [X|X]; [cbn in X; subst; contradiction|]. apply (HD k'); [now right|exact X].
    + apply Permutation_sym, Permutation_middle.
  - symmetry. apply umap_find_none, HD. now left.
Qed.

(** read_all for entries whose image is a mapped value *)
Lemma read_all_map {A B} (rd : stream -> res (B * stream)) (g : A -> B) (f : A -> list N) l :
  Forall (fun a => forall rest st, ready st (f a ++ rest) -> rd st = Val (g a, consume (f a) st)) l ->
  forall rest st, ready st (concat (map f l) ++ rest) -> read_all rd (length l) st = Val (map g l, consume (concat (map f l)) st).
Proof.
  induction 1 as [|a l H HF IH]; intros rest st HR; cbn [length read_all map concat] in *.
  - rewrite consume_nil; [reflexivity|]. apply HR.
  - rewrite <- app_assoc in HR. rewrite (H _ _ HR). cbn [bind]. rewrite (IH rest) by (apply consume_ready, HR). cbn [bind].
    now rewrite consume_app.
Qed.

Lemma read_map_ok e l link d st p : Forall entry_ok l -> N.of_nat (length l) < 2 ^ 32 -> N.of_nat link < 2 ^ 63 -> NoDup (map fst l) ->
  file_at st d p -> at_ d link (rec (kbytes l)) ->
  exists m st', read_map e (priv e link) [] st = Val (m, st') /\ Permutation m (privs e l) /\ file_at st' d (link + length (rec (kbytes l))).
Proof.
  intros HE HL HK ND F HA. unfold read_map. rewrite from_private by exact HK.
  apply (file_at_seek_to _ _ _ link) in F. apply file_at_reset in F. set (st0 := resetChecksum _) in *.
  assert (C0 : s_crc st0 = Some 0) by reflexivity. clearbody st0.
  destruct (at_ready _ _ _ _ HA (rec_nonempty _) F) as (rest & HR). unfold rec, kbytes in HR. rewrite <- !app_assoc in HR.
  erewrite read_prim_ok; [|apply swappable4|change (2 ^ (8 * N.of_nat 4)) with (2 ^ 32); exact HL|apply HR]. cbn [bind].
  apply consume_ready in HR. rewrite Nat2N.id.
  rewrite (read_all_map _ (fun q => (fst q, priv e (snd q))) ebytes l) with (2 := HR).
  2:{ eapply Forall_impl; [|exact HE]. intros q (B & I & S) rest' st' HR'. unfold ebytes in HR'. rewrite <- !app_assoc in HR'.
      rewrite app_assoc in HR'. erewrite read_desc_ok; [|exact B|exact I|exact HR']. cbn [bind]. apply consume_ready in HR'.
      erewrite read_priv_ok; [|exact S|exact HR']. cbn [bind]. unfold ebytes. now rewrite consume_app. }
  cbn [bind]. rewrite consume_app. apply consume_ready in HR. rewrite consume_app in HR. fold (kbytes l) in HR |- *.
  rewrite (crc_consume _ _ 0) by exact C0. cbn [bind].
  erewrite read_prim_ok; [|apply swappable4|apply crc_small, kbytes_ok, HE|apply HR]. cbn [bind]. rewrite N.eqb_refl. cbn [negb].
  do 2 eexists. split; [reflexivity|]. split.
  - change (map (fun q => (fst q, priv e (snd q))) l) with (privs e l).
    eapply Permutation_trans; [apply fold_insert|rewrite app_nil_r; reflexivity].
    + unfold privs. rewrite map_map. exact ND.
    + intros k _ [].
  - rewrite consume_app. now apply file_at_consume.
Qed.

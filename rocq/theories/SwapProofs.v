(** Proofs about byte_swap. *)
From Coq Require Import List Arith NArith ZArith Bool Lia.
From Coq Require Import ZifyBool ZifyNat ZifyN.
From Verif Require Import Base CrcModel CrcSpec CrcProofs.
Import ListNotations.
Local Open Scope N_scope.
Ltac Zify.zify_post_hook ::= Z.div_mod_to_equations.

(** ** Words and their memory images *)
Lemma le_bytes_length n : forall v, length (le_bytes n v) = n.
Proof. induction n; intros v; cbn [le_bytes length]; auto. Qed.
Lemma mem_length e n v : length (mem e n v) = n.
Proof. destruct e; cbn [mem]; rewrite ?rev_length; apply le_bytes_length. Qed.
Lemma le_bytes_ok n : forall v, bytes_ok (le_bytes n v).
Proof. induction n; intros v; cbn [le_bytes]; constructor; [apply N.mod_upper_bound; discriminate|apply IHn]. Qed.
Lemma bytes_ok_rev bs : bytes_ok bs -> bytes_ok (rev bs).
Proof. apply Forall_rev. Qed.
Lemma mem_ok e n v : bytes_ok (mem e n v).
Proof. destruct e; cbn [mem]; [apply bytes_ok_rev|]; apply le_bytes_ok. Qed.
Lemma le_word_bytes n : forall v, v < 2 ^ (8 * N.of_nat n) -> le_word (le_bytes n v) = v.
Proof.
  induction n as [|n IH]; intros v H; [cbn in H; cbn [le_bytes le_word]; lia|].
  cbn [le_bytes le_word]. rewrite IH.
  - rewrite N.add_comm. symmetry. apply N.div_mod. discriminate.
  - apply N.div_lt_upper_bound; [discriminate|]. rewrite Nat2N.inj_succ, N.mul_succ_r, N.add_comm, N.pow_add_r in H. exact H.
Qed.
Lemma le_bytes_word bs : bytes_ok bs -> le_bytes (length bs) (le_word bs) = bs.
Proof.
  induction 1 as [|b bs Hb H IH]; [reflexivity|]. cbn [length le_word le_bytes]. f_equal.
  - rewrite N.mul_comm, N.mod_add by discriminate. apply N.mod_small, Hb.
  - rewrite N.mul_comm, N.div_add by discriminate. rewrite N.div_small by exact Hb. exact IH.
Qed.
Lemma word_mem e n v : v < 2 ^ (8 * N.of_nat n) -> word e (mem e n v) = v.
Proof. intros H. destruct e; cbn [word mem]; rewrite ?rev_involutive; apply le_word_bytes, H. Qed.
Lemma mem_word e n bs : length bs = n -> bytes_ok bs -> mem e n (word e bs) = bs.
Proof.
  intros <- H. destruct e; cbn [word mem]; [|apply le_bytes_word, H].
  rewrite <- (rev_length bs). rewrite le_bytes_word by apply bytes_ok_rev, H. apply rev_involutive.
Qed.
Lemma le_word_lt bs : bytes_ok bs -> le_word bs < 2 ^ (8 * N.of_nat (length bs)).
Proof.
  induction 1 as [|b bs Hb H IH]; [reflexivity|]. cbn [length le_word].
  rewrite Nat2N.inj_succ, N.mul_succ_r, N.add_comm, N.pow_add_r. change (2 ^ 8) with 256.
  set (p := 2 ^ (8 * N.of_nat (length bs))) in *. clearbody p. nia.
Qed.
Lemma word_lt e bs : bytes_ok bs -> word e bs < 2 ^ (8 * N.of_nat (length bs)).
Proof.
  intros H. destruct e; cbn [word]; [|apply le_word_lt, H]. rewrite <- rev_length. apply le_word_lt, bytes_ok_rev, H.
Qed.
Lemma mem_swap n v : mem BigE n v = rev (mem LittleE n v).
Proof. reflexivity. Qed.

Lemma big_endian_spec e : big_endian e = match e with BigE => true | LittleE => false end.
Proof. destruct e; reflexivity. Qed.

(** ** One word *)
Lemma land_mask x k : N.land x (255 * 2 ^ k) = x / 2 ^ k mod 2 ^ 8 * 2 ^ k.
Proof.
  apply N.bits_inj. intro i. rewrite <- !N.shiftl_mul_pow2, N.land_spec.
  destruct (N.lt_ge_cases i k) as [Hi|Hi].
  - rewrite !N.shiftl_spec_low by exact Hi. apply andb_false_r.
  - rewrite !N.shiftl_spec_high' by exact Hi. change 255 with (N.ones 8).
    destruct (N.lt_ge_cases (i - k) 8) as [H8|H8].
    + rewrite N.ones_spec_low by exact H8. rewrite N.mod_pow2_bits_low by exact H8.
      rewrite <- N.shiftr_div_pow2, N.shiftr_spec', andb_true_r. f_equal. lia.
    + rewrite N.ones_spec_high by exact H8. rewrite N.mod_pow2_bits_high by exact H8. apply andb_false_r.
Qed.
Lemma lor_disjoint a b k : a < 2 ^ k -> N.lor a (b * 2 ^ k) = a + b * 2 ^ k.
Proof.
  intros H. assert (L : N.land a (b * 2 ^ k) = 0).
  { apply N.bits_inj. intro i. rewrite N.land_spec, N.bits_0, <- N.shiftl_mul_pow2.
    destruct (N.lt_ge_cases i k) as [Hi|Hi].
    - rewrite N.shiftl_spec_low by exact Hi. apply andb_false_r.
    - rewrite (bits_lt a k) by assumption. reflexivity. }
  rewrite N.add_nocarry_lxor by exact L. symmetry. apply N.lxor_lor, L.
Qed.

Lemma swap4_ok b0 b1 b2 b3 : b0 < 256 -> b1 < 256 -> b2 < 256 -> b3 < 256 ->
  swap4 (le_word [b0; b1; b2; b3]) = le_word [b3; b2; b1; b0].
Proof.
  intros H0 H1 H2 H3. unfold swap4. cbn [le_word].
  replace (b0 + 256 * (b1 + 256 * (b2 + 256 * (b3 + 256 * 0)))) with (b0 + 256 * b1 + 65536 * b2 + 16777216 * b3) by lia.
  set (w := b0 + 256 * b1 + 65536 * b2 + 16777216 * b3).
  change 0x000000ff with (255 * 2 ^ 0). change 0x0000ff00 with (255 * 2 ^ 8).
  change 0x00ff0000 with (255 * 2 ^ 16). change 0xff000000 with (255 * 2 ^ 24).
  rewrite !land_mask, !N.shiftr_div_pow2, !N.shiftl_mul_pow2.
  replace (w / 2 ^ 24 / 2 ^ 0 mod 2 ^ 8 * 2 ^ 0) with b3
    by (change (2 ^ 24) with 16777216; change (2 ^ 0) with 1; change (2 ^ 8) with 256; unfold w; lia).
  replace (w / 2 ^ 8 / 2 ^ 8 mod 2 ^ 8) with b2.
  2:{ rewrite N.div_div by discriminate. change (2 ^ 8 * 2 ^ 8) with 65536. change (2 ^ 8) with 256. unfold w. lia. }
  replace ((w * 2 ^ 8) mod 2 ^ 32 / 2 ^ 16 mod 2 ^ 8) with b1.
  2:{ replace ((w * 2 ^ 8) mod 2 ^ 32) with ((b0 + 256 * b1 + 65536 * b2) * 256)
        by (change (2 ^ 8) with 256; change (2 ^ 32) with 4294967296; unfold w; lia).
      change (2 ^ 16) with 65536. change (2 ^ 8) with 256. lia. }
  replace ((w * 2 ^ 24) mod 2 ^ 32 / 2 ^ 24 mod 2 ^ 8) with b0.
  2:{ replace ((w * 2 ^ 24) mod 2 ^ 32) with (b0 * 16777216)
        by (change (2 ^ 24) with 16777216; change (2 ^ 32) with 4294967296; unfold w; lia).
      change (2 ^ 24) with 16777216. change (2 ^ 8) with 256. lia. }
  rewrite (lor_disjoint b3 b2 8) by exact H3.
  rewrite (lor_disjoint (b3 + b2 * 2 ^ 8) b1 16) by (change (2 ^ 8) with 256; change (2 ^ 16) with 65536; lia).
  rewrite (lor_disjoint _ b0 24)
    by (change (2 ^ 8) with 256; change (2 ^ 16) with 65536; change (2 ^ 24) with 16777216; lia).
  change (2 ^ 8) with 256; change (2 ^ 16) with 65536; change (2 ^ 24) with 16777216. lia.
Qed.
Lemma swap2_ok b0 b1 : b0 < 256 -> b1 < 256 -> swap2 (le_word [b0; b1]) = le_word [b1; b0].
Proof.
  intros H0 H1. unfold swap2. cbn [le_word].
  replace (b0 + 256 * (b1 + 256 * 0)) with (b0 + 256 * b1) by lia. set (w := b0 + 256 * b1).
  change 0x00ff with (255 * 2 ^ 0). change 0xff00 with (255 * 2 ^ 8).
  rewrite !land_mask, !N.shiftr_div_pow2, !N.shiftl_mul_pow2.
  replace (w / 2 ^ 8 / 2 ^ 0 mod 2 ^ 8 * 2 ^ 0) with b1
    by (change (2 ^ 0) with 1; change (2 ^ 8) with 256; unfold w; lia).
  rewrite (N.div_mul w (2 ^ 8)) by discriminate.
  replace (w mod 2 ^ 8) with b0 by (change (2 ^ 8) with 256; unfold w; lia).
  rewrite (lor_disjoint b1 b0 8) by exact H1. change (2 ^ 8) with 256; change (2 ^ 16) with 65536. lia.
Qed.

Definition swappable (size : nat) : Prop := In size [1; 2; 4; 8; 16]%nat.

Lemma swap_word_ok e size bs : In size [2; 4; 8; 16]%nat -> length bs = size -> bytes_ok bs ->
  swap_word e size bs = Some (rev bs).
Proof.
  intros Hs L H. destruct Hs as [<-|[<-|[<-|[<-|[]]]]].
  - destruct bs as [|b0 [|b1 [|]]]; try discriminate. cbn [swap_word]. f_equal.
    assert (K : b0 < 256 /\ b1 < 256) by (inversion H as [|? ? K1 H1]; inversion H1; subst; auto). destruct K.
    destruct e; cbn [word mem rev app].
    + rewrite swap2_ok by assumption. change 2%nat with (length [b0; b1]). rewrite le_bytes_word; [reflexivity|].
      repeat constructor; assumption.
    + rewrite swap2_ok by assumption. change 2%nat with (length [b1; b0]). rewrite le_bytes_word; [reflexivity|].
      repeat constructor; assumption.
  - destruct bs as [|b0 [|b1 [|b2 [|b3 [|]]]]]; try discriminate. cbn [swap_word]. f_equal.
    assert (K : b0 < 256 /\ b1 < 256 /\ b2 < 256 /\ b3 < 256).
    { repeat match goal with X : bytes_ok (_ :: _) |- _ => inversion X; subst; clear X | X : Forall _ (_ :: _) |- _ => inversion X; subst; clear X end; auto. }
    destruct K as (K0 & K1 & K2 & K3).
    destruct e; cbn [word mem rev app].
    + rewrite swap4_ok by assumption. change 4%nat with (length [b0; b1; b2; b3]). rewrite le_bytes_word; [reflexivity|].
      repeat constructor; assumption.
    + rewrite swap4_ok by assumption. change 4%nat with (length [b3; b2; b1; b0]). rewrite le_bytes_word; [reflexivity|].
      repeat constructor; assumption.
  - do 8 (destruct bs as [|? bs]; [discriminate|]). destruct bs; [reflexivity|discriminate].
  - do 16 (destruct bs as [|? bs]; [discriminate|]). destruct bs; [reflexivity|discriminate].
Qed.

(** ** The loop *)
Lemma peek_app pre w rest : peek (pre ++ w ++ rest) (length pre) (length w) = Some w.
Proof.
  unfold peek. rewrite !app_length. destruct (Nat.leb_spec (length pre + length w) (length pre + (length w + length rest))); [|lia].
  rewrite skipn_app, skipn_all, Nat.sub_diag. cbn [skipn app]. rewrite firstn_app, Nat.sub_diag, firstn_all, firstn_O.
  now rewrite app_nil_r.
Qed.
Lemma poke_app pre w w' rest : length w' = length w -> poke (pre ++ w ++ rest) (length pre) w' = pre ++ w' ++ rest.
Proof.
  intros L. unfold poke. rewrite firstn_app, Nat.sub_diag, firstn_all, firstn_O, app_nil_r. do 2 f_equal.
  rewrite L, <- app_length, app_assoc, skipn_app, skipn_all, Nat.sub_diag. reflexivity.
Qed.

Definition swap_body e size (acc : res (list N)) (j : nat) : res (list N) :=
  bind acc (fun buf => bind (of_option (peek buf (size * j) size)) (fun bs =>
  bind (of_option (swap_word e size bs)) (fun bs' => Val (poke buf (size * j) bs')))).
Lemma swap_loop_ok e size post : In size [2; 4; 8; 16]%nat -> forall ws pre j,
  Forall (fun w => length w = size /\ bytes_ok w) ws -> length pre = (size * j)%nat ->
  fold_left (swap_body e size) (seq j (length ws)) (Val (pre ++ concat ws ++ post)) = Val (pre ++ concat (map (@rev N) ws) ++ post).
Proof.
  intros Hs. induction ws as [|w ws IH]; intros pre j HF HL; [reflexivity|].
  inversion HF as [|? ? [Lw Bw] HF']; subst. cbn [length seq fold_left concat map].
  unfold swap_body at 2. cbn [bind]. rewrite <- HL, <- !app_assoc, peek_app. cbn [of_option bind].
  rewrite swap_word_ok by (auto; rewrite ?HL; auto). cbn [of_option bind]. rewrite poke_app by apply rev_length.
  specialize (IH (pre ++ rev w) (S j) HF'). rewrite <- !app_assoc in IH. apply IH.
  rewrite app_length, rev_length, HL. lia.
Qed.

Lemma byte_swap_ok e size ws post : swappable size -> Forall (fun w => length w = size /\ bytes_ok w) ws ->
  byte_swap e (concat ws ++ post) size (length ws) = Val (concat (map (@rev N) ws) ++ post).
Proof.
  intros Hs HF. destruct Hs as [<-|Hs].
  - cbn [byte_swap]. do 2 f_equal. f_equal. clear post. induction HF as [|w ws [L _] HF IH]; [reflexivity|].
    cbn [map]. f_equal; [|exact IH]. destruct w as [|b [|]]; try discriminate. reflexivity.
  - pose proof (swap_loop_ok e size post Hs ws [] 0 HF ltac:(cbn; lia)) as E. cbn [app] in E.
    destruct Hs as [<-|[<-|[<-|[<-|[]]]]]; exact E.
Qed.
Lemma byte_swap_unsupported e buf size nmemb : ~ swappable size -> byte_swap e buf size nmemb = Abort.
Proof.
  intros H. unfold swappable in H. cbn [In] in H.
  do 17 (destruct size as [|size]; [try reflexivity; exfalso; apply H; tauto|]). reflexivity.
Qed.

Lemma swap_counter_never_stops nmemb : 2 ^ 32 <= nmemb ->
  forall n : nat, exists j, Nat.iter n (fun o => match o with Some j => swap_counter nmemb j | None => None end) (Some 0) = Some j /\ j < 2 ^ 32.
Proof.
  intros H. induction n as [|n (j & E & Hj)]; [exists 0; split; reflexivity|].
  rewrite iter_S, E. unfold swap_counter. destruct (N.ltb_spec j nmemb) as [L|L]; [|lia].
  eexists. split; [reflexivity|]. apply N.mod_upper_bound. discriminate.
Qed.
Lemma swap_counter_stops nmemb : nmemb < 2 ^ 32 ->
  Nat.iter (N.to_nat nmemb) (fun o => match o with Some j => swap_counter nmemb j | None => None end) (Some 0) = Some nmemb /\
  swap_counter nmemb nmemb = None.
Proof.
  intros H. split; [|unfold swap_counter; now rewrite N.ltb_irrefl].
  assert (G : forall n, (n <= N.to_nat nmemb)%nat ->
    Nat.iter n (fun o => match o with Some j => swap_counter nmemb j | None => None end) (Some 0) = Some (N.of_nat n)).
  { induction n as [|n IH]; intros Hn; [reflexivity|]. rewrite iter_S, IH by lia. unfold swap_counter.
    destruct (N.ltb_spec (N.of_nat n) nmemb) as [L|L]; [|lia]. f_equal. rewrite N.mod_small by lia. lia. }
  rewrite G by lia. f_equal. lia.
Qed.

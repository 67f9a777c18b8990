(** Proofs about binary input and output. *)
From Coq Require Import List Arith NArith ZArith Bool Lia Permutation Sorting.Sorted.
From Coq Require Import ZifyBool ZifyNat ZifyN.
From Verif Require Import Base CrcModel CrcSpec CrcProofs SwapProofs EvalModel EvalProofs IoModel IoSpec.
Import ListNotations.
Local Open Scope N_scope.
Ltac Zify.zify_post_hook ::= Z.div_mod_to_equations.

Local Arguments crc32 : simpl never.

(** ** Lists *)
Lemma skipn_app_l {A} (a b : list A) n : length a = n -> skipn n (a ++ b) = b.
Proof. intros <-. now rewrite skipn_app, skipn_all, Nat.sub_diag. Qed.
Lemma firstn_app_l {A} (a b : list A) n : length a = n -> firstn n (a ++ b) = a.
Proof. intros <-. now rewrite firstn_app, Nat.sub_diag, firstn_all, firstn_O, app_nil_r. Qed.
Lemma skipn_skipn' {A} (l : list A) : forall a b, skipn a (skipn b l) = skipn (b + a) l.
Proof. induction l as [|x l IH]; intros a [|b]; cbn [skipn Nat.add]; auto. now rewrite !skipn_nil. Qed.

(** ** Emitting bytes *)
Definition emit (bs : list N) (st : stream) : stream := put_bytes bs (add_crc bs st).

Definition lead (d : list N) (p : nat) : list N := firstn p d ++ repeat 0 (p - length d).
Lemma lead_length d p : length (lead d p) = p.
Proof. unfold lead. rewrite app_length, firstn_length, repeat_length. lia. Qed.
Lemma overwrite_lead d p bs : bs <> [] -> overwrite d p bs = lead d p ++ bs ++ skipn (p + length bs) d.
Proof. intros H. destruct bs; [congruence|]. unfold overwrite, lead. now rewrite <- app_assoc. Qed.
Lemma overwrite_app d p a b : overwrite (overwrite d p a) (p + length a) b = overwrite d p (a ++ b).
Proof.
  destruct a as [|x a]; [cbn [length app overwrite]; now rewrite Nat.add_0_r|].
  destruct b as [|y b]; [now rewrite app_nil_r|].
  remember (x :: a) as A. remember (y :: b) as B.
  rewrite (overwrite_lead d p A) by (subst; discriminate). rewrite (overwrite_lead d p (A ++ B)) by (subst; discriminate).
  rewrite overwrite_lead by (subst; discriminate).
  replace (lead (lead d p ++ A ++ skipn (p + length A) d) (p + length A)) with (lead d p ++ A).
  - rewrite <- !app_assoc. do 3 f_equal. rewrite app_assoc.
    rewrite <- (skipn_skipn' _ (length B) (p + length A)), skipn_app_l by (rewrite app_length, lead_length; lia).
    rewrite skipn_skipn', app_length. f_equal. lia.
  - unfold lead at 2. rewrite app_assoc, firstn_app_l by (rewrite app_length, lead_length; lia).
    rewrite app_length, (app_length (lead d p)), lead_length.
    replace (p + length A - (p + length A + _))%nat with 0%nat by lia. cbn [repeat]. now rewrite app_nil_r.
Qed.

Lemma emit_app a b st : emit b (emit a st) = emit (a ++ b) st.
Proof.
  destruct st as [jn d g p f c]. unfold emit, add_crc, with_crc, put_bytes, at_put. cbn [s_fail s_joint s_data s_get s_put s_crc].
  assert (E : option_map (fun c0 => crc32 c0 (Some b)) (option_map (fun c0 => crc32 c0 (Some a)) c)
              = option_map (fun c0 => crc32 c0 (Some (a ++ b))) c).
  { destruct c as [c|]; [|reflexivity]. cbn [option_map]. now rewrite crc32_app. }
  destruct f; cbn [s_fail s_joint s_data s_get s_put s_crc].
  - now rewrite E.
  - rewrite overwrite_app, E, app_length. destruct jn; f_equal; lia.
Qed.

Definition coherent (st : stream) : Prop := s_joint st = true -> s_get st = s_put st.
Lemma emit_nil st : coherent st -> emit [] st = st.
Proof.
  unfold coherent, emit, add_crc, with_crc, put_bytes, at_put. destruct st as [jn d g p f c]. cbn. intros H.
  replace (option_map (fun c0 => crc32 c0 (Some [])) c) with c by (destruct c; cbn [option_map]; now rewrite ?crc32_nil).
  destruct f; [reflexivity|]. destruct jn; rewrite ?H by reflexivity; f_equal; lia.
Qed.
Lemma emit_coherent bs st : coherent st -> coherent (emit bs st).
Proof.
  unfold coherent, emit, add_crc, with_crc, put_bytes, at_put. destruct st as [jn d g p f c]. cbn.
  destruct f; cbn; [auto|]. destruct jn; auto; discriminate.
Qed.

(** ** Consuming bytes *)
Definition consume (bs : list N) (st : stream) : stream := add_crc bs (at_get (s_get st + length bs) st).
Definition ready (st : stream) (bs : list N) : Prop :=
  s_fail st = false /\ coherent st /\ exists pre, s_data st = pre ++ bs /\ length pre = s_get st.

Lemma consume_app a b st : consume b (consume a st) = consume (a ++ b) st.
Proof.
  unfold consume, add_crc, with_crc, at_get. destruct st as [jn d g p f c]. cbn.
  rewrite app_length. f_equal; try (destruct jn; lia); try lia.
  destruct c; cbn [option_map]; [|reflexivity]. now rewrite crc32_app.
Qed.
Lemma consume_nil st : coherent st -> consume [] st = st.
Proof.
  unfold coherent, consume, add_crc, with_crc, at_get. destruct st as [jn d g p f c]. cbn. intros H.
  replace (option_map (fun c0 => crc32 c0 (Some [])) c) with c by (destruct c; cbn [option_map]; now rewrite ?crc32_nil).
  f_equal; [lia|]. destruct jn; [rewrite <- H by reflexivity; lia|reflexivity].
Qed.
Lemma consume_ready a b st : ready st (a ++ b) -> ready (consume a st) b.
Proof.
  intros (F & C & pre & D & L). unfold ready, coherent, consume, add_crc, with_crc, at_get in *. destruct st as [jn d g p f c]. cbn in *.
  split; [exact F|]. split; [intros ->; reflexivity|]. exists (pre ++ a). rewrite <- app_assoc, app_length. split; [exact D|lia].
Qed.
Lemma get_bytes_ready a b st : ready st (a ++ b) -> get_bytes (length a) st = Val (a, at_get (s_get st + length a) st).
Proof.
  intros (F & _ & pre & D & L). unfold get_bytes. rewrite F, D, <- L, peek_app. reflexivity.
Qed.

(** ** Arrays and primitives *)
Lemma words_ok e size vs : Forall (fun w => length w = size /\ bytes_ok w) (map (mem e size) vs).
Proof. apply Forall_forall. intros w H. apply in_map_iff in H. destruct H as (v & <- & _). split; [apply mem_length|apply mem_ok]. Qed.
Lemma concat_words_length e size (vs : list N) : length (concat (map (mem e size) vs)) = (size * length vs)%nat.
Proof. induction vs; cbn [map concat length]; [lia|]. rewrite app_length, IHvs, mem_length. lia. Qed.
Lemma rev_words_little size vs : map (@rev N) (map (mem LittleE size) vs) = map (mem BigE size) vs.
Proof. rewrite map_map. reflexivity. Qed.
Lemma rev_words_big size vs : map (@rev N) (map (mem BigE size) vs) = map (mem LittleE size) vs.
Proof. rewrite map_map. apply map_ext. intros v. cbn [mem]. apply rev_involutive. Qed.
Lemma byte_swap_words e e' e'' size vs post : swappable size ->
  map (@rev N) (map (mem e' size) vs) = map (mem e'' size) vs ->
  byte_swap e (concat (map (mem e' size) vs) ++ post) size (length vs) = Val (concat (map (mem e'' size) vs) ++ post).
Proof.
  intros Hs E. pose proof (byte_swap_ok e size (map (mem e' size) vs) post Hs (words_ok e' size vs)) as H.
  rewrite map_length, E in H. exact H.
Qed.

Lemma write_array_ok e size vs post st : swappable size ->
  write_array e (concat (map (mem e size) vs) ++ post) size (length vs) st
  = Val (concat (map (mem e size) vs) ++ post, emit (concat (map (mem BigE size) vs)) st).
Proof.
  intros Hs. unfold write_array. rewrite big_endian_spec. destruct e.
  - rewrite firstn_app_l by apply concat_words_length. reflexivity.
  - rewrite (byte_swap_words LittleE LittleE BigE) by (auto; apply rev_words_little). cbn [bind].
    rewrite (byte_swap_words LittleE BigE LittleE) by (auto; apply rev_words_big). cbn [bind].
    rewrite firstn_app_l by apply concat_words_length. reflexivity.
Qed.
Lemma read_array_ok e size vs rest st : swappable size -> ready st (concat (map (mem BigE size) vs) ++ rest) ->
  read_array e size (length vs) st = Val (concat (map (mem e size) vs), consume (concat (map (mem BigE size) vs)) st).
Proof.
  intros Hs HR. unfold read_array.
  rewrite <- (concat_words_length BigE), (get_bytes_ready _ rest) by exact HR. cbn [bind]. rewrite big_endian_spec. destruct e; [reflexivity|].
  pose proof (byte_swap_words LittleE BigE LittleE size vs [] Hs (rev_words_big size vs)) as E. rewrite !app_nil_r in E.
  rewrite E. reflexivity.
Qed.
Lemma write_prim_ok e size v st : swappable size -> write_prim e size v st = Val (emit (mem BigE size v) st).
Proof.
  intros Hs. unfold write_prim. pose proof (write_array_ok e size [v] [] st Hs) as E. cbn [map concat length] in E.
  rewrite !app_nil_r in E. rewrite E. reflexivity.
Qed.
Lemma read_prim_ok e size v rest st : swappable size -> v < 2 ^ (8 * N.of_nat size) -> ready st (mem BigE size v ++ rest) ->
  read_prim e size st = Val (v, consume (mem BigE size v) st).
Proof.
  intros Hs Hv HR. unfold read_prim. pose proof (read_array_ok e size [v] rest st Hs) as E. cbn [map concat length] in E.
  rewrite !app_nil_r in E. rewrite E by exact HR. cbn [bind]. now rewrite word_mem.
Qed.

(** The bytes of an int. *)
Definition int_bytes (n : nat) : list N := mem BigE 4 (N.of_nat n).
Lemma swappable4 : swappable 4. Proof. cbn; tauto. Qed.
Lemma swappable1 : swappable 1. Proof. cbn; tauto. Qed.
Lemma write_size_ok e n st : int_size n -> write_size e n st = Val (emit (int_bytes n) st).
Proof.
  intros H. unfold write_size, int_size in *. rewrite write_prim_ok by apply swappable4.
  rewrite N.mod_small; [reflexivity|]. change (2 ^ 31) with 2147483648 in H. change (2 ^ 32) with 4294967296. lia.
Qed.
Lemma read_size_ok e n rest st : int_size n -> ready st (int_bytes n ++ rest) -> read_size e st = Val (n, consume (int_bytes n) st).
Proof.
  intros H HR. unfold read_size, int_size in *. rewrite (read_prim_ok e 4 (N.of_nat n) rest) by
    (try apply swappable4; try exact HR; change (2 ^ (8 * N.of_nat 4)) with 4294967296; change (2 ^ 31) with 2147483648 in H; lia).
  cbn [bind]. destruct (N.ltb_spec (N.of_nat n) (2 ^ 31)); [|lia]. now rewrite Nat2N.id.
Qed.

(** ** Strings as char arrays *)
Lemma mem1 e c : c < 256 -> mem e 1 c = [c].
Proof. intros H. destruct e; cbn [mem le_bytes rev app]; rewrite N.mod_small by exact H; reflexivity. Qed.
Lemma chars_mem e s : bytes_ok s -> concat (map (mem e 1) s) = s.
Proof. induction 1 as [|c s H HS IH]; [reflexivity|]. cbn [map concat]. rewrite mem1, IH by exact H. reflexivity. Qed.
Lemma write_chars_ok e s st : bytes_ok s -> write_array e s 1 (length s) st = Val (s, emit s st).
Proof.
  intros H. pose proof (write_array_ok e 1 s [] st swappable1) as E. rewrite !chars_mem, app_nil_r in E by exact H. exact E.
Qed.
Lemma read_chars_ok e s rest st : bytes_ok s -> ready st (s ++ rest) -> read_array e 1 (length s) st = Val (s, consume s st).
Proof.
  intros H HR. pose proof (read_array_ok e 1 s rest st swappable1) as E. rewrite !chars_mem in E by exact H. exact (E HR).
Qed.
Lemma write_desc_ok e s st : bytes_ok s -> int_size (length s) -> write_desc e s st = Val (emit (int_bytes (length s) ++ s) st).
Proof.
  intros H HL. unfold write_desc. rewrite write_size_ok by exact HL. cbn [bind]. rewrite write_chars_ok by exact H.
  cbn [bind snd]. now rewrite emit_app.
Qed.
Lemma read_desc_ok e s rest st : bytes_ok s -> int_size (length s) -> ready st ((int_bytes (length s) ++ s) ++ rest) ->
  read_desc e st = Val (s, consume (int_bytes (length s) ++ s) st).
Proof.
  intros H HL HR. rewrite <- app_assoc in HR. unfold read_desc. rewrite (read_size_ok e (length s) (s ++ rest)) by auto. cbn [bind].
  rewrite (read_chars_ok e s rest) by (auto using consume_ready). now rewrite consume_app.
Qed.

(** ** Strings as lines *)
Lemma write_string_ok e s st : bytes_ok s -> write_string e s st = Val (emit (s ++ [10]) st).
Proof.
  intros H. unfold write_string. rewrite write_chars_ok by exact H. cbn [bind snd].
  pose proof (write_chars_ok e [10] (emit s st) ltac:(repeat constructor)) as E. cbn [length] in E. rewrite E. cbn [bind snd].
  now rewrite emit_app.
Qed.
Lemma getline_ok s rest : ~ In 10 s -> forall room, (length s <= room)%nat ->
  getline_loop room (s ++ 10 :: rest) = (s, S (length s), false).
Proof.
  induction s as [|c s IH]; intros H room L; cbn [app length]; [now destruct room|].
  destruct room as [|room]; [cbn in L; lia|]. cbn [getline_loop].
  destruct (N.eqb_spec c 10) as [->|_]; [exfalso; apply H; now left|].
  rewrite IH; [reflexivity| |cbn in L; lia]. intros X. apply H. now right.
Qed.
Lemma c_string_id s : ~ In 0 s -> c_string s = s.
Proof.
  induction s as [|c s IH]; intros H; [reflexivity|]. cbn [c_string]. destruct (N.eqb_spec c 0) as [->|_]; [exfalso; apply H; now left|].
  rewrite IH; [reflexivity|]. intros X. apply H. now right.
Qed.
Lemma read_string_ok max s rest st : bytes_ok s -> line_ok max s -> ready st ((s ++ [10]) ++ rest) ->
  read_string max st = Val (s, consume (s ++ [10]) st).
Proof.
  intros H (H10 & H0 & HL) (F & C & pre & D & L). unfold read_string. destruct max as [|room]; [lia|].
  rewrite F, D, skipn_app_l by exact L. rewrite <- app_assoc. cbn [app].
  rewrite getline_ok by (auto; lia). cbn [orb Nat.eqb]. rewrite c_string_id by exact H0. f_equal. f_equal.
  unfold consume, add_crc, with_crc, at_get. destruct st as [jn d g p f c]. cbn. rewrite app_length. cbn [length].
  f_equal; try (destruct jn; lia); try lia. destruct c; cbn [option_map]; [|reflexivity]. now rewrite crc32_app.
Qed.
Lemma getline_line room : forall inp s n f, getline_loop room inp = (s, n, f) -> ~ In 10 s /\ (length s <= room)%nat.
Proof.
  induction room as [|room IH]; intros [|c inp] s n f E; cbn [getline_loop] in E.
  - inversion E. cbn; split; [tauto|lia].
  - destruct (N.eqb_spec c 10); inversion E; cbn; split; (tauto || lia).
  - inversion E. cbn; split; [tauto|lia].
  - destruct (N.eqb_spec c 10) as [|NE]; [inversion E; cbn; split; [tauto|lia]|].
    destruct (getline_loop room inp) as [[s' n'] f'] eqn:E'. inversion E; subst. destruct (IH _ _ _ _ E') as [A B].
    cbn [length In]. split; [|lia]. intros [X|X]; [congruence|tauto].
Qed.
Lemma c_string_sub s : ~ In 0 (c_string s) /\ (length (c_string s) <= length s)%nat /\ (forall x, In x (c_string s) -> In x s).
Proof.
  induction s as [|c s (A & B & C)]; [cbn; split; [tauto|split; [lia|tauto]]|]. cbn [c_string].
  destruct (N.eqb_spec c 0) as [E|NE]; cbn [length In]; [split; [tauto|split; [lia|tauto]]|].
  split; [intros [X|X]; [congruence|tauto]|]. split; [lia|]. intros x [X|X]; [now left|right; now apply C].
Qed.
Lemma read_string_line max st s st' : read_string max st = Val (s, st') -> line_ok max s.
Proof.
  unfold read_string, line_ok. destruct max as [|room]; [discriminate|]. destruct (s_fail st); intros E.
  - inversion E. cbn. repeat split; (tauto || lia).
  - destruct (getline_loop room (skipn (s_get st) (s_data st))) as [[l n] f] eqn:G. inversion E; subst.
    destruct (getline_line _ _ _ _ _ G) as [A B]. destruct (c_string_sub l) as (A' & B' & C'). repeat split; [|exact A'|lia].
    intros X. apply A, C', X.
Qed.

(** ** Loops of writes and reads *)
Lemma write_all_ok {A} (w : A -> stream -> res stream) (f : A -> list N) l :
  Forall (fun a => forall st, coherent st -> w a st = Val (emit (f a) st)) l ->
  forall st, coherent st -> write_all w l st = Val (emit (concat (map f l)) st).
Proof.
  induction 1 as [|a l H HF IH]; intros st HC; cbn [write_all map concat]; [now rewrite emit_nil|].
  rewrite H by exact HC. cbn [bind]. rewrite IH by (apply emit_coherent, HC). now rewrite emit_app.
Qed.
Lemma read_all_ok {A} (rd : stream -> res (A * stream)) (f : A -> list N) l :
  Forall (fun a => forall rest st, ready st (f a ++ rest) -> rd st = Val (a, consume (f a) st)) l ->
  forall rest st, ready st (concat (map f l) ++ rest) -> read_all rd (length l) st = Val (l, consume (concat (map f l)) st).
Proof.
  induction 1 as [|a l H HF IH]; intros rest st HR; cbn [length read_all map concat] in *.
  - rewrite consume_nil; [reflexivity|]. apply HR.
  - rewrite <- app_assoc in HR. rewrite (H _ _ HR). cbn [bind]. rewrite (IH rest) by (apply consume_ready, HR). cbn [bind].
    now rewrite consume_app.
Qed.

(** ** Index tuples of multi-dimensional arrays *)
Lemma product_cons n ns : product (n :: ns) = (n * product ns)%nat.
Proof. reflexivity. Qed.
Lemma tuples_length ns : length (tuples ns) = product ns.
Proof.
  induction ns as [|n ns IH]; [reflexivity|]. rewrite product_cons. cbn [tuples]. generalize 0%nat.
  induction n as [|n IHn]; intros a; [reflexivity|]. cbn [seq flat_map]. rewrite app_length, map_length, IHn, IH. lia.
Qed.
Lemma tuples_in ns : forall ix, In ix (tuples ns) <-> Forall2 (fun i n => (i < n)%nat) ix ns.
Proof.
  induction ns as [|n ns IH]; intros ix; cbn [tuples].
  - cbn [In]. split; [intros [<-|[]]; constructor|]. intros H. inversion H. auto.
  - rewrite in_flat_map. split.
    + intros (i & Hi & H). apply in_map_iff in H. destruct H as (q & <- & Hq). apply in_seq in Hi.
      constructor; [lia|]. apply IH, Hq.
    + intros H. inversion H as [|i m q r Hi Hq]; subst. exists i. split; [apply in_seq; lia|]. apply in_map, IH, Hq.
Qed.
Lemma multi_offset_lt ns ix : Forall2 (fun i n => (i < n)%nat) ix ns -> (multi_offset ns ix < product ns)%nat.
Proof.
  intros H. induction H as [|i n ix ns Hi H IH]; [cbn; lia|]. rewrite product_cons. cbn [multi_offset]. nia.
Qed.
Lemma multi_offset_inj ns : forall ix iy, Forall2 (fun i n => (i < n)%nat) ix ns -> Forall2 (fun i n => (i < n)%nat) iy ns ->
  multi_offset ns ix = multi_offset ns iy -> ix = iy.
Proof.
  induction ns as [|n ns IH]; intros ix iy Hx Hy E; inversion Hx as [|i m q r Hi Hq]; inversion Hy as [|j m' q' r' Hj Hq']; subst; [reflexivity|].
  cbn [multi_offset] in E. assert (multi_offset ns q = multi_offset ns q') by nia. f_equal; [nia|]. now apply IH.
Qed.
Lemma tuples_nodup ns : NoDup (tuples ns).
Proof.
  induction ns as [|n ns IH]; cbn [tuples]; [constructor; [cbn; tauto|constructor]|].
  generalize 0%nat. induction n as [|n IHn]; intros a; cbn [seq flat_map]; [constructor|].
  assert (D : forall l1 l2 : list (list nat), NoDup l1 -> NoDup l2 -> (forall x, In x l1 -> ~ In x l2) -> NoDup (l1 ++ l2)).
  { clear. induction l1 as [|x l1 IH]; intros l2 H1 H2 H; [exact H2|]. inversion H1; subst. cbn [app]. constructor.
    - rewrite in_app_iff. intros [X|X]; [tauto|]. apply (H x); [now left|exact X].
    - apply IH; auto. intros y Hy. apply H. now right. }
  apply D.
  - apply FinFun.Injective_map_NoDup; [|exact IH]. intros x y E. now inversion E.
  - apply IHn.
  - intros x Hx Hy. apply in_map_iff in Hx. destruct Hx as (q & <- & _). apply in_flat_map in Hy.
    destruct Hy as (b & Hb & Hq). apply in_map_iff in Hq. destruct Hq as (q' & E & _). inversion E. subst. apply in_seq in Hb. lia.
Qed.
Lemma offsets_all ns k : (k < product ns)%nat -> exists ix, In ix (tuples ns) /\ multi_offset ns ix = k.
Proof.
  revert k. induction ns as [|n ns IH]; intros k Hk.
  - exists []. cbn in *. split; [auto|lia].
  - rewrite product_cons in Hk. assert (Hn : (n <> 0)%nat) by (intros ->; lia).
    destruct (IH (k / n)%nat) as (q & Hq & E).
    { apply Nat.div_lt_upper_bound; lia. }
    exists (k mod n :: q)%nat. split.
    + apply tuples_in. constructor; [apply Nat.mod_upper_bound, Hn|]. now apply tuples_in.
    + cbn [multi_offset]. rewrite E. pose proof (Nat.div_mod k n Hn). lia.
Qed.

(** Storing elements one by one, each at its own place. *)
Lemma fill_spec {A} (d : A) (F : list A) (off : list nat -> nat) : forall ixs G,
  length G = length F -> NoDup (map off ixs) -> Forall (fun ix => (off ix < length F)%nat) ixs ->
  (forall k, (k < length F)%nat -> In k (map off ixs) \/ nth k G d = nth k F d) ->
  fold_left (fun G p => set_nth (off (fst p)) (snd p) G) (combine ixs (map (fun ix => nth (off ix) F d) ixs)) G = F.
Proof.
  induction ixs as [|ix ixs IH]; intros G HL ND HB HG; cbn [map combine fold_left].
  - apply (nth_ext _ _ d d); [exact HL|]. intros k Hk. rewrite HL in Hk. destruct (HG k Hk) as [[]|E]; exact E.
  - cbn [map] in ND. inversion ND as [|? ? NI ND']; subst. inversion HB as [|? ? B HB']; subst. cbn [fst snd]. apply IH; auto.
    + now rewrite set_nth_length.
    + intros k Hk. destruct (HG k Hk) as [[E|I]|E].
      * right. subst k. rewrite set_nth_eq; [reflexivity|lia].
      * now left.
      * destruct (Nat.eq_dec (off ix) k) as [->|NE]; [right; rewrite set_nth_eq; [reflexivity|lia]|].
        right. rewrite set_nth_ne by exact NE. exact E.
Qed.
Lemma multi_fill ns (F : list value) : length F = product ns ->
  fold_left (fun G p => set_nth (multi_offset ns (fst p)) (snd p) G)
    (combine (tuples ns) (map (fun ix => nth (multi_offset ns ix) F (VPrim 0)) (tuples ns))) (repeat (VPrim 0) (product ns)) = F.
Proof.
  intros HL. apply fill_spec.
  - now rewrite repeat_length.
  - pose proof (tuples_nodup ns) as ND. assert (HI : forall x, In x (tuples ns) -> Forall2 (fun i n => (i < n)%nat) x ns) by (intros; now apply tuples_in).
    induction ND as [|x l NI ND IH]; cbn [map]; [constructor|]. constructor.
    + intros H. apply in_map_iff in H. destruct H as (y & E & Hy). apply NI. replace x with y; [exact Hy|].
      apply (multi_offset_inj ns); [apply HI; now right|apply HI; now left|exact E].
    + apply IH. intros; apply HI; now right.
  - apply Forall_forall. intros ix H. rewrite HL. apply multi_offset_lt. now apply tuples_in.
  - intros k Hk. left. rewrite HL in Hk. destruct (offsets_all ns k Hk) as (ix & I & E). apply in_map_iff. exists ix. auto.
Qed.

(** ** Objects *)
Section Objects.
  Variable klt : value -> value -> bool.
  Hypothesis klt_order : strict_order klt.

  (** The bytes of an object. *)
  Fixpoint enc (t : ty) (v : value) : list N :=
    match t, v with
    | TPrim size, VPrim n => mem BigE size n
    | TDesc, VDesc s => int_bytes (length s) ++ s
    | TLine _, VDesc s => s ++ [10]
    | TSeq t, VSeq l => int_bytes (length l) ++ concat (map (enc t) l)
    | TMulti d t, VMulti ns F =>
        concat (map int_bytes (rev ns)) ++
        concat (map (enc t) (map (fun ix => nth (multi_offset ns ix) F (VPrim 0)) (tuples ns)))
    | TNd t, VNd ns F => int_bytes (length ns) ++ concat (map int_bytes ns) ++ concat (map (enc t) F)
    | TMap k t, VMap l => int_bytes (length l) ++ concat (map (fun p => enc k (fst p) ++ enc t (snd p)) l)
    | TPair a b, VPair x y => enc a x ++ enc b y
    | _, _ => []
    end.

  Lemma elements_typed t ns F : Forall (has_type klt t) F -> length F = product ns ->
    Forall (has_type klt t) (map (fun ix => nth (multi_offset ns ix) F (VPrim 0)) (tuples ns)).
  Proof.
    intros HF HL. apply Forall_forall. intros v H. apply in_map_iff in H. destruct H as (ix & <- & Hi).
    rewrite Forall_forall in HF. apply HF, nth_In. rewrite HL. apply multi_offset_lt. now apply tuples_in.
  Qed.

  Lemma write_val_ok e t : forall v st, has_type klt t v -> coherent st -> write_val e t v st = Val (emit (enc t v) st).
  Proof.
    induction t as [size| |max|t IH|d t IH|t IH|k IHk t IHt|a IHa b IHb]; intros v st H HC; inversion H; subst; cbn [write_val enc].
    - now apply write_prim_ok.
    - now apply write_desc_ok.
    - now apply write_string_ok.
    - rewrite write_size_ok by assumption. cbn [bind]. rewrite (write_all_ok _ (enc t)).
      + now rewrite emit_app.
      + eapply Forall_impl; [|eassumption]. cbn beta. intros; now apply IH.
      + now apply emit_coherent.
    - rewrite (write_all_ok _ int_bytes); [|apply Forall_forall; intros n Hn st' _; apply write_size_ok|exact HC].
      + cbn [bind]. rewrite (write_all_ok _ (enc t)).
        * now rewrite emit_app.
        * eapply Forall_impl; [|eapply elements_typed; eassumption]. cbn beta. intros; now apply IH.
        * now apply emit_coherent.
      + match goal with X : Forall int_size ns |- _ => rewrite Forall_forall in X; apply X end. now apply in_rev.
    - destruct ns as [|n0 ns0]; [congruence|]. set (ns := n0 :: ns0) in *.
      rewrite write_size_ok by assumption. cbn [bind]. rewrite (write_all_ok _ int_bytes).
      + cbn [bind]. rewrite (write_all_ok _ (enc t)).
        * now rewrite !emit_app, ?app_assoc.
        * eapply Forall_impl; [|eassumption]. cbn beta. intros; now apply IH.
        * now repeat apply emit_coherent.
      + eapply Forall_impl; [|eassumption]. cbn beta. intros; now apply write_size_ok.
      + now apply emit_coherent.
    - rewrite write_size_ok by assumption. cbn [bind]. rewrite (write_all_ok _ (fun p => enc k (fst p) ++ enc t (snd p))).
      + now rewrite emit_app.
      + rewrite Forall_forall in *. intros p Hp st' HC'. rewrite IHk by auto. cbn [bind]. rewrite IHt by (auto using emit_coherent).
        now rewrite emit_app.
      + now apply emit_coherent.
    - rewrite IHa by assumption. cbn [bind]. rewrite IHb by (auto using emit_coherent). now rewrite emit_app.
  Qed.

  Lemma insert_last l k v : Forall (fun p => klt (fst p) k = true) l -> map_insert klt k v l = l ++ [(k, v)].
  Proof.
    destruct klt_order as [irr tr]. induction 1 as [|[k' v'] l H HF IH]; [reflexivity|]. cbn [fst] in H. cbn [map_insert app].
    replace (klt k k') with false; [rewrite H, IH; reflexivity|].
    destruct (klt k k') eqn:E; [|reflexivity]. pose proof (tr k k' k E H) as X. now rewrite (irr k) in X.
  Qed.
  Lemma insert_sorted l : StronglySorted (fun p q => klt (fst p) (fst q) = true) l -> forall m,
    Forall (fun p => Forall (fun q => klt (fst p) (fst q) = true) l) m ->
    fold_left (fun m p => map_insert klt (fst p) (snd p) m) l m = m ++ l.
  Proof.
    induction 1 as [|[k v] l HS IH HF]; intros m Hm; cbn [fold_left]; [now rewrite app_nil_r|]. cbn [fst snd].
    rewrite insert_last.
    - rewrite IH; [now rewrite <- app_assoc|]. apply Forall_app. split; [|constructor; [exact HF|constructor]].
      eapply Forall_impl; [|exact Hm]. cbn beta. intros p Hp. now inversion Hp.
    - eapply Forall_impl; [|exact Hm]. cbn beta. intros p Hp. now inversion Hp.
  Qed.

  Lemma read_val_ok e t : forall v rest st, has_type klt t v -> ready st (enc t v ++ rest) ->
    read_val klt e t st = Val (v, consume (enc t v) st).
  Proof.
    induction t as [size| |max|t IH|d t IH|t IH|k IHk t IHt|a IHa b IHb]; intros v rest st H HR; inversion H; subst; cbn [read_val enc] in *.
    - rewrite (read_prim_ok e size n rest) by assumption. reflexivity.
    - rewrite (read_desc_ok e s rest) by assumption. reflexivity.
    - rewrite (read_string_ok max s rest) by assumption. reflexivity.
    - rewrite <- app_assoc in HR. rewrite (read_size_ok e (length l) (concat (map (enc t) l) ++ rest)) by assumption. cbn [bind].
      rewrite (read_all_ok _ (enc t) l) with (rest := rest).
      + cbn [bind]. now rewrite consume_app.
      + eapply Forall_impl; [|eassumption]. cbn beta. intros; eapply IH; eassumption.
      + now apply consume_ready.
    - set (vs := map (fun ix => nth (multi_offset ns ix) F (VPrim 0)) (tuples ns)) in *.
      rewrite <- app_assoc in HR.
      replace (length ns) with (length (rev ns)) by apply rev_length.
      rewrite (read_all_ok _ int_bytes (rev ns)) with (rest := concat (map (enc t) vs) ++ rest); [|apply Forall_forall; intros n Hn rest' st' HR'; apply (read_size_ok e n rest'); [|exact HR']|exact HR].
      + cbn [bind]. rewrite rev_involutive. replace (length (tuples ns)) with (length vs) by apply map_length.
        rewrite (read_all_ok _ (enc t) vs) with (rest := rest).
        * cbn [bind]. unfold vs at 1. rewrite multi_fill by assumption. now rewrite consume_app.
        * eapply Forall_impl; [|eapply elements_typed; eassumption]. cbn beta. intros; eapply IH; eassumption.
        * now apply consume_ready.
      + match goal with X : Forall int_size ns |- _ => rewrite Forall_forall in X; apply X end. now apply in_rev.
    - rewrite <- !app_assoc in HR. rewrite (read_size_ok e (length ns) (concat (map int_bytes ns) ++ concat (map (enc t) F) ++ rest)) by assumption. cbn [bind].
      apply consume_ready in HR. destruct (length ns =? 0)%nat eqn:E0; [destruct ns; [congruence|discriminate]|].
      rewrite (read_all_ok _ int_bytes ns) with (rest := concat (map (enc t) F) ++ rest); [|eapply Forall_impl; [|eassumption]; cbn beta; intros; eapply read_size_ok; eassumption|exact HR].
      cbn [bind]. apply consume_ready in HR. replace (product ns) with (length F) by assumption.
      rewrite (read_all_ok _ (enc t) F) with (rest := rest).
      + cbn [bind]. now rewrite !consume_app, ?app_assoc.
      + eapply Forall_impl; [|eassumption]. cbn beta. intros; eapply IH; eassumption.
      + exact HR.
    - rewrite <- app_assoc in HR.
      rewrite (read_size_ok e (length l) (concat (map (fun p => enc k (fst p) ++ enc t (snd p)) l) ++ rest)) by assumption. cbn [bind].
      rewrite (read_all_ok _ (fun p => enc k (fst p) ++ enc t (snd p)) l) with (rest := rest).
      + cbn [bind]. rewrite insert_sorted by (auto; constructor). now rewrite consume_app.
      + rewrite Forall_forall in *. intros [x y] Hp rest' st' HR'. cbn [fst snd] in *. rewrite <- app_assoc in HR'.
        rewrite (IHk x (enc t y ++ rest')); [|change x with (fst (x, y)); auto|exact HR']. cbn [bind].
        rewrite (IHt y rest'); [|change y with (snd (x, y)); auto|apply consume_ready, HR']. cbn [bind].
        now rewrite consume_app.
      + now apply consume_ready.
    - rewrite <- app_assoc in HR. rewrite (IHa x (enc b y ++ rest)) by assumption. cbn [bind].
      rewrite (IHb y rest) by (auto using consume_ready). cbn [bind]. now rewrite consume_app.
  Qed.

  Definition enc_all (l : list (ty * value)) : list N := concat (map (fun p => enc (fst p) (snd p)) l).
  Lemma write_objects_ok e l : Forall (fun p => has_type klt (fst p) (snd p)) l -> forall st, coherent st ->
    write_objects e l st = Val (emit (enc_all l) st).
  Proof.
    unfold enc_all. induction 1 as [|[t v] l H HF IH]; intros st HC; cbn [write_objects map concat]; [now rewrite emit_nil|].
    cbn [fst snd] in *. rewrite write_val_ok by assumption. cbn [bind]. rewrite IH by (apply emit_coherent, HC). now rewrite emit_app.
  Qed.
  Lemma read_objects_ok e l : Forall (fun p => has_type klt (fst p) (snd p)) l -> forall rest st, ready st (enc_all l ++ rest) ->
    read_objects klt e (map fst l) st = Val (map snd l, consume (enc_all l) st).
  Proof.
    unfold enc_all. induction 1 as [|[t v] l H HF IH]; intros rest st HR; cbn [read_objects map concat] in *.
    - rewrite consume_nil by apply HR. reflexivity.
    - cbn [fst snd] in *. rewrite <- app_assoc in HR. rewrite (read_val_ok e t v _ _ H HR). cbn [bind].
      rewrite (IH rest) by (apply consume_ready, HR). cbn [bind]. now rewrite consume_app.
  Qed.
End Objects.

(** ** Whole programs *)
Lemma emit_fields bs st : s_fail st = false ->
  s_joint (emit bs st) = s_joint st /\ s_data (emit bs st) = overwrite (s_data st) (s_put st) bs /\
  s_put (emit bs st) = (s_put st + length bs)%nat /\ s_fail (emit bs st) = false /\
  s_get (emit bs st) = (if s_joint st then s_put st + length bs else s_get st)%nat /\
  s_crc (emit bs st) = option_map (fun c => crc32 c (Some bs)) (s_crc st).
Proof.
  intros F. destruct st as [jn d g p f c]. cbn in F. subst f. unfold emit, add_crc, with_crc, put_bytes, at_put. cbn. auto 6.
Qed.
Lemma overwrite_data d p bs : (p <= length d)%nat -> overwrite d p bs = firstn p d ++ bs ++ skipn (p + length bs) d.
Proof.
  intros H. destruct bs as [|b bs].
  - cbn [overwrite length app]. now rewrite Nat.add_0_r, firstn_skipn.
  - unfold overwrite. replace (p - length d)%nat with 0%nat by lia. reflexivity.
Qed.
Lemma nth_error_skipn' {A} (d : list A) : forall k j, nth_error (skipn k d) j = nth_error d (k + j).
Proof. induction d as [|x d IH]; intros [|k] j; [reflexivity|now destruct j|reflexivity|]. apply IH. Qed.
Lemma overwrite_outside d p bs i : (p <= length d)%nat -> (i < p \/ p + length bs <= i)%nat ->
  nth_error (overwrite d p bs) i = nth_error d i.
Proof.
  intros H Hi. rewrite overwrite_data by exact H. pose proof (firstn_length p d) as L.
  destruct Hi as [Hi|Hi].
  - rewrite nth_error_app1 by lia. symmetry. rewrite <- (firstn_skipn p d) at 1. now rewrite nth_error_app1 by lia.
  - rewrite nth_error_app2 by lia. rewrite nth_error_app2 by lia.
    rewrite nth_error_skipn'. destruct (Nat.le_gt_cases p (length d)); [|lia]. f_equal. lia.
Qed.

Lemma round_trip klt e1 e2 l w : strict_order klt -> Forall (fun p => has_type klt (fst p) (snd p)) l ->
  s_fail w = false -> coherent w -> (s_put w <= length (s_data w))%nat ->
  exists w', write_objects e1 l w = Val w' /\ s_fail w' = false /\ (s_put w <= s_put w')%nat /\
    s_joint w' = s_joint w /\
    (forall i, (i < s_put w \/ s_put w' <= i)%nat -> nth_error (s_data w') i = nth_error (s_data w) i) /\
    forall r, s_data r = s_data w' -> s_get r = s_put w -> s_fail r = false -> coherent r -> s_crc r = s_crc w ->
      exists r', read_objects klt e2 (map fst l) r = Val (map snd l, r') /\
        s_get r' = s_put w' /\ s_crc r' = s_crc w' /\ s_data r' = s_data w'.
Proof.
  intros Hk HF F C P. exists (emit (enc_all l) w). rewrite (write_objects_ok klt) by assumption. split; [reflexivity|].
  destruct (emit_fields (enc_all l) w F) as (EJ & ED & EP & EF & _ & EC). rewrite EP, EF.
  split; [reflexivity|]. split; [lia|]. split; [exact EJ|]. split.
  - intros i Hi. rewrite ED. now apply overwrite_outside.
  - intros r RD RG RF RC RK. exists (consume (enc_all l) r). split.
    + apply (read_objects_ok klt Hk e2 l HF (skipn (s_put w + length (enc_all l)) (s_data w))). split; [exact RF|]. split; [exact RC|].
      exists (firstn (s_put w) (s_data w)). rewrite RD, ED, overwrite_data, RG, firstn_length by exact P. split; [reflexivity|lia].
    + unfold consume, add_crc, with_crc, at_get. cbn. rewrite RG, RK, EC, RD. auto.
Qed.

Lemma write_bytes_same klt e1 e2 l w : Forall (fun p => has_type klt (fst p) (snd p)) l -> coherent w ->
  write_objects e1 l w = write_objects e2 l w.
Proof. intros HF C. now rewrite !(write_objects_ok klt) by assumption. Qed.

Lemma big_endian_mem size : forall v, mem BigE size v = big_endian_bytes size v.
Proof.
  unfold big_endian_bytes. cbn [mem]. induction size as [|n IH]; intros v; [reflexivity|].
  cbn [le_bytes rev]. rewrite IH, seq_S, map_app. cbn [map plus]. f_equal.
  - apply map_ext_in. intros i Hi. apply in_seq in Hi. replace (S n - 1 - i)%nat with (S (n - 1 - i)) by lia.
    rewrite Nat2N.inj_succ, N.mul_succ_r, N.add_comm, N.pow_add_r, <- N.div_div by (try discriminate; apply N.pow_nonzero; discriminate).
    reflexivity.
  - replace (S n - 1 - n)%nat with 0%nat by lia. cbn. now rewrite N.div_1_r.
Qed.

Lemma read_little_ok e size vs rest st : swappable size -> ready st (concat (map (mem LittleE size) vs) ++ rest) ->
  exists st', read_array_little e size (length vs) st = Val (concat (map (mem e size) vs), st') /\ s_crc st' = s_crc st.
Proof.
  intros Hs HR. unfold read_array_little.
  rewrite <- (concat_words_length LittleE), (get_bytes_ready _ rest) by exact HR. cbn [bind]. rewrite big_endian_spec. destruct e; [|eexists; split; reflexivity].
  pose proof (byte_swap_words BigE LittleE BigE size vs [] Hs (rev_words_little size vs)) as E. rewrite !app_nil_r in E.
  rewrite E. eexists; split; reflexivity.
Qed.

(** Reader-writers. *)
Lemma readwriter_objects klt e1 e2 l p st : strict_order klt -> Forall (fun p => has_type klt (fst p) (snd p)) l ->
  s_joint st = true -> s_fail st = false -> (p <= length (s_data st))%nat ->
  exists st' st'', write_objects e1 l (readwriter_seek p st) = Val st' /\
    read_objects klt e2 (map fst l) (readwriter_seek p st') = Val (map snd l, st'') /\
    s_crc st'' = s_crc st' /\
    (forall i, (i < p \/ s_put st' <= i)%nat -> nth_error (s_data st') i = nth_error (s_data st) i).
Proof.
  intros Hk HF J F P. destruct (round_trip klt e1 e2 l (readwriter_seek p st) Hk HF) as (w' & E & F' & _ & J' & O & R).
  - exact F.
  - intros _. unfold readwriter_seek, with_crc, at_get. cbn. now rewrite J.
  - unfold readwriter_seek, with_crc, at_get. cbn. now rewrite J.
  - assert (S0 : s_put (readwriter_seek p st) = p) by (unfold readwriter_seek, with_crc, at_get; cbn; now rewrite J).
    rewrite S0 in *. destruct (R (readwriter_seek p w')) as (r' & E' & _ & C' & _); try reflexivity.
    + exact F'.
    + intros X. unfold readwriter_seek, with_crc, at_get in *. cbn in *. now rewrite X.
    + exists w', r'. auto.
Qed.
Lemma buffer_seek_ignored e l p st : s_joint st = false ->
  write_objects e l (readwriter_seek p st) = write_objects e l (with_crc (Some 0) (at_get p st)) /\
  s_put (readwriter_seek p st) = s_put st.
Proof. intros J. split; [reflexivity|]. unfold readwriter_seek, with_crc, at_get. cbn. now rewrite J. Qed.
Lemma buffer_write_place klt e l p st : Forall (fun p => has_type klt (fst p) (snd p)) l ->
  s_joint st = false -> s_fail st = false ->
  exists bs st', write_objects e l (readwriter_seek p st) = Val st' /\ s_data st' = overwrite (s_data st) (s_put st) bs /\
    forall q, exists st2, write_objects e l (readwriter_seek q st) = Val st2 /\ s_data st2 = s_data st'.
Proof.
  intros HF J F. assert (C : forall q, coherent (readwriter_seek q st)).
  { intros q H. unfold readwriter_seek, with_crc, at_get in *. cbn in *. congruence. }
  assert (G : forall q, s_data (emit (enc_all l) (readwriter_seek q st)) = overwrite (s_data st) (s_put st) (enc_all l)).
  { intros q. destruct (emit_fields (enc_all l) (readwriter_seek q st) F) as (_ & D & _). rewrite D.
    destruct (buffer_seek_ignored e l q st J) as [_ ->]. reflexivity. }
  exists (enc_all l), (emit (enc_all l) (readwriter_seek p st)). rewrite (write_objects_ok klt) by auto. split; [reflexivity|].
  split; [apply G|]. intros q. exists (emit (enc_all l) (readwriter_seek q st)). rewrite (write_objects_ok klt) by auto.
  split; [reflexivity|]. now rewrite !G.
Qed.
Lemma buffer_checksum_undefined klt e l s : Forall (fun p => has_type klt (fst p) (snd p)) l ->
  exists st, write_objects e l (buffer_from s) = Val st /\ getChecksum st = Undef.
Proof.
  intros HF. exists (emit (enc_all l) (buffer_from s)). rewrite (write_objects_ok klt); [|exact HF|intros X; discriminate X].
  split; [reflexivity|]. unfold getChecksum. destruct (emit_fields (enc_all l) (buffer_from s) eq_refl) as (_ & _ & _ & _ & _ & ->).
  reflexivity.
Qed.

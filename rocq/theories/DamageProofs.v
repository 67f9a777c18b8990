(** Damaged gauge archives. *)
From Coq Require Import String List Arith NArith ZArith Bool Ascii Lia Permutation.
From Verif Require Import Base LayoutModel LayoutSpec LayoutProofs LayoutOk SetModel SetProofs MapProofs
  CrcModel CrcSpec CrcProofs SwapProofs IoModel IoSpec IoProofs LatIoModel LatIoSpec LatIoProofs LatIoOk
  NerscModel NerscSpec NerscProofs NerscAlgebra NerscHeader NerscHeaderSpec NerscText NerscHeaderOk NerscArchive DamageSpec.
Import ListNotations.
Local Open Scope nat_scope.

Definition total (ws : list N) : N := fold_right N.add 0%N ws.
Lemma total_app a b : total (a ++ b) = (total a + total b)%N.
Proof. unfold total. induction a as [|x a IH]; cbn [app fold_right]; [reflexivity|]. rewrite IH. lia. Qed.

Lemma bytes_split (P : list N) n m : length P = n + m -> Forall is_byte P ->
  exists a b, P = a ++ b /\ length a = n /\ length b = m /\ Forall is_byte a /\ Forall is_byte b.
Proof.
  intros H F. exists (firstn n P), (skipn n P). rewrite firstn_skipn, firstn_length, skipn_length. rewrite <- (firstn_skipn n P) in F.
  apply Forall_app in F. intuition lia.
Qed.

Lemma words32_app a b : length a mod 4 = 0 -> words32 (a ++ b) = words32 a ++ words32 b.
Proof.
  remember (length a / 4) as k. intros H. assert (E : length a = 4 * k) by (subst k; now apply Nat.div_exact). clear H Heqk. revert a E.
  induction k as [|k IH]; intros a E; [destruct a; [reflexivity|cbn in E; lia]|].
  do 4 (destruct a as [|? a]; [cbn in E; lia|]). cbn [app words32]. rewrite IH by (cbn in E; lia). reflexivity.
Qed.
Lemma word4 a : length a = 4 -> words32 a = [word BigE a].
Proof.
  intros H. do 4 (destruct a as [|? a]; [discriminate|]). destruct a; [|discriminate]. cbn [words32 word rev app le_word]. f_equal.
  change (2 ^ 24)%N with 16777216%N. change (2 ^ 16)%N with 65536%N. change (2 ^ 8)%N with 256%N. lia.
Qed.
Lemma le_word_app a b : le_word (a ++ b) = (le_word a + 2 ^ (8 * N.of_nat (length a)) * le_word b)%N.
Proof.
  induction a as [|x a IH]; [cbn [app le_word length]; change (2 ^ (8 * N.of_nat 0))%N with 1%N; lia|].
  cbn [app le_word length]. rewrite IH, Nat2N.inj_succ, N.mul_succ_r, N.add_comm with (n := (8 * _)%N), N.pow_add_r. change (2 ^ 8)%N with 256%N. lia.
Qed.
Lemma word8 a b : length a = 4 -> length b = 4 -> word BigE (a ++ b) = (word BigE b + 2 ^ 32 * word BigE a)%N.
Proof. intros Ha Hb. cbn [word]. rewrite rev_app_distr, le_word_app, rev_length, Hb. reflexivity. Qed.
Lemma byte_ok a : Forall is_byte a -> bytes_ok a.
Proof. intros H. exact H. Qed.

(** Any bytes are numbers. *)
Lemma decode size n : size = 4 \/ size = 8 -> forall P, length P = size * n -> Forall is_byte P ->
  exists W, site_ok size n W /\ site_bytes size W = P /\ total (flat_map (parts size) W) = total (words32 P).
Proof.
  intros HS. induction n as [|n IH]; intros P HP HF.
  - exists []. destruct P; [|cbn in HP; lia]. split; [split; [reflexivity|constructor]|]. split; reflexivity.
  - destruct (bytes_split P size (size * n)) as (a & b & -> & La & Lb & Fa & Fb); [lia|exact HF|].
    destruct (IH b Lb Fb) as (W & [HW1 HW2] & HB & HT). exists (word BigE a :: W).
    assert (HLT : (word BigE a < 2 ^ (8 * N.of_nat size))%N) by (rewrite <- La; apply word_lt, byte_ok, Fa).
    split; [split; [cbn; lia|constructor; assumption]|]. split.
    + unfold site_bytes in *. cbn [map concat]. rewrite HB, <- big_endian_mem, mem_word; auto.
    + cbn [flat_map]. rewrite total_app, HT, words32_app, total_app.
      2:{ rewrite La. destruct HS as [-> | ->]; reflexivity. }
      f_equal. destruct HS as [-> | ->].
      * rewrite word4 by exact La. reflexivity.
      * destruct (bytes_split a 4 4 La Fa) as (c & d & -> & Lc & Ld & Fc & Fd). rewrite words32_app, total_app, !word4 by (rewrite ?Lc; auto).
        rewrite word8 by assumption. cbn [parts Nat.eqb]. cbn [total fold_right].
        assert (X : (word BigE d < 2 ^ 32)%N) by (change 32%N with (8 * N.of_nat 4)%N; rewrite <- Ld; apply word_lt, byte_ok, Fd).
        rewrite (N.mul_comm (2 ^ 32)), N.mod_add, N.mod_small, N.div_add, N.div_small by (try discriminate; exact X). lia.
Qed.
Lemma sum_total ws : sum_of ws = (total ws mod 2 ^ 32)%N.
Proof. reflexivity. Qed.

Lemma word_inj a b : length a = length b -> Forall is_byte a -> Forall is_byte b -> word BigE a = word BigE b -> a = b.
Proof. intros L A B E. rewrite <- (mem_word BigE (length a) a), <- (mem_word BigE (length a) b) by auto. now rewrite E. Qed.
Lemma group_sum P P' : one_group_changed P P' -> Forall is_byte P -> Forall is_byte P' -> sum_of (words32 P') <> sum_of (words32 P).
Proof.
  intros (a & x & y & c & -> & -> & La & Lx & Ly & NE) F F' E.
  apply Forall_app in F as [_ F]. apply Forall_app in F as [Fx _]. apply Forall_app in F' as [_ F']. apply Forall_app in F' as [Fy _].
  rewrite !words32_app in E by (try exact La; rewrite ?Lx, ?Ly; reflexivity). rewrite !sum_total, !total_app, (word4 x Lx), (word4 y Ly) in E.
  cbn [total fold_right] in E. fold (total (words32 a)) (total (words32 c)) in E. apply NE, word_inj; auto; [congruence|].
  pose proof (word_lt BigE x (byte_ok x Fx)) as Bx. pose proof (word_lt BigE y (byte_ok y Fy)) as By. rewrite Lx in Bx. rewrite Ly in By.
  change (2 ^ (8 * N.of_nat 4))%N with (2 ^ 32)%N in *. set (M := (2 ^ 32)%N) in *. assert (HM : M <> 0%N) by discriminate.
  revert E. generalize dependent (word BigE x). generalize dependent (word BigE y). intros v By u Bx E.
  set (t := (total (words32 a) + total (words32 c))%N) in *.
  assert (E' : ((t + u) mod M = (t + v) mod M)%N).
  { symmetry. replace (t + u)%N with (total (words32 a) + (u + 0 + total (words32 c)))%N by (unfold t; lia).
    replace (t + v)%N with (total (words32 a) + (v + 0 + total (words32 c)))%N by (unfold t; lia). exact E. }
  clear E. clearbody t M. pose proof (N.div_mod (t + u) M HM). pose proof (N.div_mod (t + v) M HM). rewrite E' in H.
  assert (D : ((t + u) / M = (t + v) / M \/ (t + u) / M < (t + v) / M \/ (t + v) / M < (t + u) / M)%N) by lia.
  destruct D as [D|[D|D]]; nia.
Qed.
Lemma byte_group P P' : length P mod 4 = 0 -> one_byte_changed P P' -> one_group_changed P P'.
Proof.
  intros HL (a & x & y & c & -> & -> & NE). set (k := length a / 4). pose proof (Nat.div_mod (length a) 4 ltac:(discriminate)) as HD. fold k in HD.
  set (r := length a mod 4) in *. assert (Hr : r < 4) by (apply Nat.mod_upper_bound; discriminate).
  rewrite app_length in HL. cbn [length] in HL.
  assert (HC : 3 - r <= length c).
  { apply Nat.div_exact in HL; [|discriminate]. lia. }
  exists (firstn (4 * k) a), (skipn (4 * k) a ++ x :: firstn (3 - r) c), (skipn (4 * k) a ++ y :: firstn (3 - r) c), (skipn (3 - r) c).
  split; [|split].
  - rewrite <- app_assoc. cbn [app]. rewrite firstn_skipn, app_assoc, firstn_skipn. reflexivity.
  - rewrite <- app_assoc. cbn [app]. rewrite firstn_skipn, app_assoc, firstn_skipn. reflexivity.
  - rewrite !app_length. cbn [length]. rewrite !firstn_length, skipn_length. split; [|split; [lia|split; [lia|]]].
    + rewrite Nat.min_l by lia. rewrite Nat.mul_comm. apply Nat.mod_mul. discriminate.
    + intros E. apply app_inv_head in E. congruence.
Qed.

Lemma reversed_length fs n : forall bs, length bs = fs * n -> length (reversed fs n bs) = fs * n.
Proof.
  induction n as [|n IH]; intros bs H; cbn [reversed length]; [lia|]. rewrite app_length, rev_length, firstn_length, IH by (rewrite skipn_length; lia). lia.
Qed.
Lemma reversed_byte fs n : forall bs, Forall is_byte bs -> Forall is_byte (reversed fs n bs).
Proof.
  induction n as [|n IH]; intros bs H; cbn [reversed]; [constructor|]. rewrite <- (firstn_skipn fs bs) in H. apply Forall_app in H as [H1 H2].
  apply Forall_app. split; [now apply Forall_rev|now apply IH].
Qed.

(** ** Files that are too short *)
Section Short.
  Context {A : Type} (rO : A) (radd rmul rsub : A -> A -> A) (cast : nat -> N -> A) (e : endian).
  Variables (mat_size fs : nat).
  Hypothesis HM : mat_ok mat_size.
  Hypothesis Hfs : fs = 4 \/ fs = 8.
  Let swap : swappable fs. Proof. destruct Hfs; subst; cbn; tauto. Qed.

  Lemma short_read n st P : ready st P -> length P < fs * n -> read_array e fs n st = Undef.
  Proof.
    intros (F & _ & pre & D & L) H. unfold read_array, get_bytes. rewrite F, D. unfold peek. rewrite app_length.
    replace (s_get st + fs * n <=? length pre + length P) with false; [reflexivity|]. symmetry. apply Nat.leb_gt. lia.
  Qed.
  Lemma long_read n st P : ready st P -> Forall is_byte P -> fs * n <= length P ->
    exists W rest, site_ok fs n W /\ read_array e fs n st = Val (image e fs W, consume (image BigE fs W) st) /\ ready (consume (image BigE fs W) st) rest /\
      Forall is_byte rest /\ length P = fs * n + length rest.
  Proof.
    intros R F H. destruct (bytes_split P (fs * n) (length P - fs * n)) as (a & b & E & La & Lb & Fa & Fb); [lia|exact F|].
    destruct (decode fs n Hfs a La Fa) as (W & HW & HB & _). exists W, b. rewrite <- be_site_bytes in HB. change (be fs) with (image BigE fs) in HB.
    rewrite E, <- HB in R. split; [exact HW|]. split; [exact (read_word1 e fs n W b st swap HW R)|]. split; [now apply consume_ready|]. split; [exact Fb|lia].
  Qed.

  Lemma short_true n st P : ready st P -> length P < n -> too_short n st = true.
  Proof. intros (F & _ & pre & D & L) H. unfold too_short. rewrite F, D, app_length. apply Nat.ltb_lt. lia. Qed.
  Lemma short_false n st P : ready st P -> n <= length P -> too_short n st = false.
  Proof. intros (F & _ & pre & D & L) H. unfold too_short. rewrite F, D, app_length. apply Nat.ltb_ge. lia. Qed.

  Lemma read_links_short k L : forall ps u c st P, ready st P -> Forall is_byte P -> length P < fs * mat_size * length ps ->
    read_links rO radd rmul rsub cast e k L mat_size fs ps u c st = Abort.
  Proof.
    induction ps as [|[n dd] ps IH]; intros u c st P R F H; [cbn in H; lia|]. cbn [read_links length] in *.
    destruct (le_lt_dec (fs * mat_size) (length P)) as [G|G].
    - rewrite (short_false _ _ _ R G).
      destruct (long_read mat_size st P R F G) as (W & rest & HW & E & R' & F' & HL). rewrite E. cbn [bind].
      pose proof (unimage_image e fs mat_size W [] HW) as U. rewrite app_nil_r in U. rewrite U.
      rewrite (unpack_val rO radd rmul rsub); [|exact HM|rewrite map_length; apply HW]. cbn [bind]. apply (IH _ _ _ rest); [exact R'|exact F'|nia].
    - now rewrite (short_true _ st P R G).
  Qed.
  Lemma read_payload_short k L u st P : ready st P -> Forall is_byte P -> length P < payload_size fs mat_size L ->
    read_payload rO radd rmul rsub cast e 4 (Single k L) mat_size fs u st = Abort.
  Proof.
    intros R F H. unfold read_payload, payload_size in *. replace ((fs =? 4) || (fs =? 8)) with true by (destruct Hfs; subst; reflexivity).
    apply (read_links_short _ _ _ _ _ _ P R F). rewrite prod_length, !seq_length, vol_volume. nia.
  Qed.

  (** *** Several nodes *)
  (** What the stream has left, also after it failed. *)
  Definition view (st : stream) (P : list N) : Prop := ready st P \/ (s_fail st = true /\ P = []).
  Lemma reversed_ok n : forall W, length W = n -> reversed fs n (image BigE fs W) = image LittleE fs W.
  Proof.
    induction n as [|n IH]; intros [|v W] H; try discriminate; [reflexivity|]. injection H as H. unfold image in *. cbn [map concat reversed].
    pose proof (mem_length BigE fs v) as L. rewrite firstn_app_l, skipn_app_l by first [exact L|symmetry; exact L]. rewrite IH by exact H. f_equal.
    cbn [mem]. apply rev_involutive.
  Qed.
  Lemma left_over_ok n W : length W = n -> left_over e fs n (image BigE fs W) = image e fs W.
  Proof. intros H. destruct e; [reflexivity|]. cbn [left_over]. now apply reversed_ok. Qed.
  Lemma over_ok n st P old : view st P -> Forall is_byte P -> Forall is_byte old -> length old = fs * n ->
    let got := firstn (fs * n) P in
    exists W st', site_ok fs n W /\ image BigE fs W = got ++ skipn (length got) old /\
      read_over e fs n (Some old) st = Val (image e fs W, st') /\ view st' (skipn (fs * n) P).
  Proof.
    intros V F FO LO got. unfold read_over.
    destruct (le_lt_dec (fs * n) (length P)) as [G|G].
    - destruct (Nat.eq_dec (fs * n) 0) as [Z|NZ].
      + (* nothing to read *)
        assert (n = 0) by (destruct Hfs; subst; lia). subst n. exists []. unfold got in *. rewrite Z in *. cbn [firstn skipn length app] in *.
        destruct old; [|discriminate LO]. destruct V as [V|[V ->]].
        * rewrite (short_false _ _ _ V) by lia. pose proof (read_word1 e fs 0 [] P st swap (conj eq_refl (Forall_nil _)) V) as E.
          exists (consume (be fs []) st). split; [split; [reflexivity|constructor]|]. split; [reflexivity|]. split; [exact E|]. left. now apply consume_ready.
        * unfold too_short. rewrite V. cbn [orb of_option bind length skipn app]. rewrite Nat.mul_0_r in *. destruct (big_endian e) eqn:EB.
          -- eexists. split; [split; [reflexivity|constructor]|]. split; [reflexivity|]. split; [reflexivity|]. right. split; reflexivity.
          -- pose proof (byte_swap_words e BigE LittleE fs [] [] swap eq_refl) as ES. cbn [map concat app length] in ES. rewrite ES. cbn [bind].
             eexists. split; [split; [reflexivity|constructor]|]. split; [reflexivity|]. split; [reflexivity|]. right. split; reflexivity.
      + destruct V as [V|[V ->]]; [|cbn in G; lia]. rewrite (short_false _ _ _ V G).
        destruct (bytes_split P (fs * n) (length P - fs * n)) as (a & b & E & La & Lb & Fa & Fb); [lia|exact F|].
        destruct (decode fs n Hfs a La Fa) as (W & HW & HB & _). rewrite <- be_site_bytes in HB. change (be fs) with (image BigE fs) in HB.
        unfold got. rewrite E, <- La. rewrite firstn_app_l, skipn_app_l by reflexivity. rewrite La, <- LO, skipn_all, app_nil_r.
        exists W, (consume (image BigE fs W) st). split; [exact HW|]. split; [exact HB|]. rewrite E, <- HB in V.
        split; [exact (read_word1 e fs n W b st swap HW V)|]. left. now apply consume_ready.
    - assert (EG : got = P) by (apply firstn_all2; lia). rewrite EG. rewrite (skipn_all2 P) by lia.
      assert (ES : too_short (fs * n) st = true /\ (if s_fail st then [] else skipn (s_get st) (s_data st)) = P).
      { destruct V as [V|[V ->]].
        - split; [now apply (short_true _ _ P)|]. destruct V as (V & _ & pre & D & L). rewrite V, D, <- L. now apply skipn_app_l.
        - unfold too_short. rewrite V. split; reflexivity. }
      destruct ES as [-> ->]. cbn [of_option bind]. set (bs := P ++ skipn (length P) old).
      assert (LB : length bs = fs * n) by (unfold bs; rewrite app_length, skipn_length; lia).
      assert (FB : Forall is_byte bs).
      { unfold bs. apply Forall_app. split; [exact F|]. rewrite <- (firstn_skipn (length P) old) in FO. now apply Forall_app in FO. }
      destruct (decode fs n Hfs bs LB FB) as (W & HW & HB & _). rewrite <- be_site_bytes in HB. change (be fs) with (image BigE fs) in HB.
      exists W. destruct (big_endian e) eqn:EB.
      + assert (EE : e = BigE) by (destruct e; [reflexivity|discriminate EB]). rewrite EE. eexists. split; [exact HW|]. split; [exact HB|].
        rewrite HB. split; [reflexivity|]. right. split; reflexivity.
      + assert (EE : e = LittleE) by (destruct e; [discriminate EB|reflexivity]).
        assert (ES : byte_swap e bs fs n = Val (image e fs W)).
        { rewrite EE, <- HB. pose proof (byte_swap_words LittleE BigE LittleE fs W [] swap (rev_words_big fs W)) as ES. rewrite !app_nil_r in ES.
          destruct HW as [HL _]. rewrite HL in ES. exact ES. }
        rewrite ES. cbn [bind]. eexists. split; [exact HW|]. split; [exact HB|]. split; [reflexivity|]. right. split; reflexivity.
  Qed.

  Lemma read_input_short Nd lay : forall sites prev inp c st P st2 rest2,
    view st P -> Forall is_byte P -> Forall is_byte prev -> length prev = fs * (mat_size * Nd) ->
    ready st2 (continued e fs (mat_size * Nd) (length sites) prev P ++ rest2) ->
    exists f c' st' st2', read_input e Nd lay mat_size fs sites (Some (left_over e fs (mat_size * Nd) prev)) inp c st = Val (f, c', st') /\
      read_input e Nd lay mat_size fs sites (Some (left_over e fs (mat_size * Nd) prev)) inp c st2 = Val (f, c', st2').
  Proof.
    set (n := mat_size * Nd). induction sites as [|s sites IH]; intros prev inp c st P st2 rest2 V F FP LP R2; cbn [read_input length continued] in *.
    - repeat eexists.
    - fold n. set (old := left_over e fs n prev) in *.
      assert (LO : length old = fs * n) by (unfold old, left_over; destruct e; [exact LP|now apply reversed_length]).
      assert (FO : Forall is_byte old) by (unfold old, left_over; destruct e; [exact FP|now apply reversed_byte]).
      destruct (over_ok n st P old V F FO LO) as (W & st' & HW & HB & E & V'). set (site := firstn (fs * n) P ++ skipn (length (firstn (fs * n) P)) old) in *.
      rewrite <- app_assoc in R2. rewrite E. cbn [bind].
      assert (LS : length site = fs * n) by (rewrite <- HB, image_length; destruct HW as [-> _]; lia).
      assert (FS : Forall is_byte site).
      { unfold site. apply Forall_app. split.
        - rewrite <- (firstn_skipn (fs * n) P) in F. now apply Forall_app in F.
        - rewrite <- (firstn_skipn (length (firstn (fs * n) P)) old) in FO. now apply Forall_app in FO. }
      assert (E2 : read_over e fs n (Some old) st2 = Val (image e fs W, consume (be fs W) st2)).
      { unfold read_over. rewrite (short_false _ _ _ R2) by (rewrite app_length; lia). rewrite <- HB in R2. exact (read_word1 e fs n W _ st2 swap HW R2). }
      rewrite E2. cbn [bind]. rewrite <- (left_over_ok n W) by apply HW. rewrite HB.
      apply (IH site _ _ st' (skipn (fs * n) P) _ rest2); [exact V'| |exact FS|exact LS|].
      + rewrite <- (firstn_skipn (fs * n) P) in F. now apply Forall_app in F.
      + rewrite <- HB in R2 at 1. now apply consume_ready in R2.
  Qed.

  Lemma read_payload_many B (K : gauge -> N -> res B) grid k M L u st P st2 rest2 : ready st P -> Forall is_byte P -> 1 <= volume L ->
    fs * (mat_size * 4) <= length P -> ready st2 (taken_for e fs mat_size L P ++ rest2) ->
    bind (read_payload rO radd rmul rsub cast e 4 (Multi grid k M L) mat_size fs u st) (fun '(u, c, _) => K u c)
    = bind (read_payload rO radd rmul rsub cast e 4 (Multi grid k M L) mat_size fs u st2) (fun '(u, c, _) => K u c).
  Proof.
    intros R F HV G R2. unfold read_payload. destruct ((fs =? 4) || (fs =? 8)); [|reflexivity]. rewrite vol_volume.
    unfold taken_for in R2. set (n := mat_size * 4) in *. destruct (volume L) as [|v]; [lia|]. cbn [seq read_input]. fold n.
    replace (S v - 1) with v in R2 by lia.
    destruct (bytes_split P (fs * n) (length P - fs * n)) as (a & b & E & La & Lb & Fa & Fb); [lia|exact F|].
    assert (EF : firstn (fs * n) P = a) by (rewrite E; now apply firstn_app_l). assert (ES : skipn (fs * n) P = b) by (rewrite E; now apply skipn_app_l).
    rewrite EF, ES in R2. destruct (decode fs n Hfs a La Fa) as (W & HW & HB & _). rewrite <- be_site_bytes in HB. change (be fs) with (image BigE fs) in HB.
    rewrite <- app_assoc in R2. rewrite E in R. clear E EF ES.
    assert (X : forall st r, ready st (a ++ r) -> read_over e fs n None st = Val (image e fs W, consume (image BigE fs W) st) /\ ready (consume (image BigE fs W) st) r).
    { intros s r R'. unfold read_over. rewrite (short_false _ _ _ R') by (rewrite app_length; lia). rewrite <- HB in R'.
      split; [exact (read_word1 e fs n W _ s swap HW R')|now apply consume_ready]. }
    destruct (X st b R) as [E1 R1]. destruct (X st2 _ R2) as [E2 R3]. rewrite E1, E2. cbn [bind]. rewrite <- (left_over_ok n W) by apply HW. rewrite HB in *.
    match goal with |- context [add_words ?e' ?l ?z] => set (c0 := add_words e' l z) end.
    match goal with |- context [fset ?f ?x ?y ?z] => set (f0 := fset f x y z) end.
    rewrite <- (seq_length v 1) in R3 at 1.
    destruct (read_input_short 4 (par_layout k M L) (seq 1 v) a f0 c0 (consume a st) b (consume a st2) rest2 (or_introl R1) Fb Fa La R3) as (f & c' & st' & st2' & EA & EB).
    fold n in EA, EB. rewrite EA, EB. cbn [bind]. destruct (convert _ _ _ _ _ _ _ _ _ _ _ _) as [x| |]; reflexivity.
  Qed.
  Lemma read_payload_none grid k M L u st P : ready st P -> 1 <= volume L -> length P < fs * (mat_size * 4) ->
    read_payload rO radd rmul rsub cast e 4 (Multi grid k M L) mat_size fs u st = Undef.
  Proof.
    intros R HV G. unfold read_payload. replace ((fs =? 4) || (fs =? 8)) with true by (destruct Hfs; subst; reflexivity). rewrite vol_volume.
    destruct (volume L) as [|v]; [lia|]. cbn [seq read_input]. unfold read_over. rewrite (short_true _ _ _ R G). reflexivity.
  Qed.
End Short.
Lemma continued_length e fs n : fs = 4 \/ fs = 8 -> forall sites prev P, length prev = fs * n -> length (continued e fs n sites prev P) = fs * n * sites.
Proof.
  intros Hfs. induction sites as [|k IH]; intros prev P LP; cbn [continued]; [cbn; lia|].
  assert (LO : length (left_over e fs n prev) = fs * n) by (destruct e; [exact LP|now apply reversed_length]).
  assert (LS : forall got, length got <= fs * n -> length (got ++ skipn (length got) (left_over e fs n prev)) = fs * n).
  { intros got Hg. rewrite app_length, skipn_length. lia. }
  rewrite app_length, IH, LS; [nia|rewrite firstn_length; lia|apply LS; rewrite firstn_length; lia].
Qed.
Lemma continued_bytes e fs n : forall sites prev P, Forall is_byte prev -> Forall is_byte P -> Forall is_byte (continued e fs n sites prev P).
Proof.
  induction sites as [|k IH]; intros prev P FP F; cbn [continued]; [constructor|].
  assert (FS : Forall is_byte (firstn (fs * n) P ++ skipn (length (firstn (fs * n) P)) (left_over e fs n prev))).
  { apply Forall_app. split.
    - rewrite <- (firstn_skipn (fs * n) P) in F. now apply Forall_app in F.
    - assert (FO : Forall is_byte (left_over e fs n prev)) by (destruct e; [exact FP|now apply reversed_byte]).
      rewrite <- (firstn_skipn (length (firstn (fs * n) P)) (left_over e fs n prev)) in FO. now apply Forall_app in FO. }
  apply Forall_app. split; [exact FS|]. apply IH; [exact FS|]. rewrite <- (firstn_skipn (fs * n) P) in F. now apply Forall_app in F.
Qed.
Lemma taken_length e fs m L P : fs = 4 \/ fs = 8 -> 1 <= volume L -> fs * (m * 4) <= length P -> length (taken_for e fs m L P) = payload_size fs m L.
Proof.
  intros Hfs HV HP. unfold taken_for, payload_size. rewrite app_length, continued_length by (auto; rewrite firstn_length; lia). rewrite firstn_length, Nat.min_l by lia. nia.
Qed.
Lemma taken_bytes e fs m L P : Forall is_byte P -> Forall is_byte (taken_for e fs m L P).
Proof.
  intros F. rewrite <- (firstn_skipn (fs * (m * 4)) P) in F. apply Forall_app in F as [F1 F2]. unfold taken_for. apply Forall_app. split; [exact F1|].
  now apply continued_bytes.
Qed.

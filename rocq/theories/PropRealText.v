(** C89: floating-point numbers as text. *)
From Coq Require Import List Bool ZArith Lia.
From Verif Require Import XmlModel RealTextModel RealTextSpec RealTextProofs RealTextMain.
Import ListNotations.
Local Open Scope Z_scope.

Lemma two_to_pos e : -1074 <= e -> 0 < two_to e.
Proof. intros. unfold two_to. apply Z.mul_pos_pos; apply Z.pow_pos_nonneg; lia. Qed.
Lemma two_to_add e i : -1074 <= e -> 0 <= i -> two_to (e + i) = two_to e * 2 ^ i.
Proof. intros. unfold two_to. replace (e + i + 1074) with ((e + 1074) + i) by lia. rewrite Z.pow_add_r by lia. generalize (5 ^ 1074) (2 ^ (e + 1074)) (2 ^ i). intros. ring. Qed.
Lemma two_to_mono e e' : -1074 <= e -> e <= e' -> two_to e <= two_to e'.
Proof. intros. unfold two_to. apply Z.mul_le_mono_nonneg_r; [apply Z.pow_nonneg; lia|]. apply Z.pow_le_mono_r; lia. Qed.
(** 2^e as a small number of steps of 10^-k *)
Lemma two_to_scale k e : 0 <= k <= 1074 -> - k <= e -> two_to e = 2 ^ (e + k) * 5 ^ k * 10 ^ (1074 - k).
Proof.
  intros. unfold two_to. assert (E1 : 2 ^ (e + 1074) = 2 ^ (e + k) * 2 ^ (1074 - k)) by (rewrite <- Z.pow_add_r by lia; f_equal; lia).
  assert (E2 : 5 ^ 1074 = 5 ^ k * 5 ^ (1074 - k)) by (rewrite <- Z.pow_add_r by lia; f_equal; lia).
  assert (E3 : 10 ^ (1074 - k) = 2 ^ (1074 - k) * 5 ^ (1074 - k)) by (rewrite <- Z.pow_mul_l; reflexivity). rewrite E1, E2, E3.
  generalize (2 ^ (e + k)) (2 ^ (1074 - k)) (5 ^ k) (5 ^ (1074 - k)). intros. ring.
Qed.
Lemma std_facts f : standard f -> 1 <= bits f /\ -1074 <= least f /\ 10 ^ 16 <= two_to (least f).
Proof.
  intros [->| ->]; (split; [cbn [bits double_format float_format]; lia|]; split; [cbn [least double_format float_format]; lia|]);
    (apply Z.le_trans with (two_to (-1074)); [|apply two_to_mono; cbn [least double_format float_format]; lia]);
    (unfold two_to; change (-1074 + 1074) with 0; rewrite Z.pow_0_r, Z.mul_1_l; apply Z.le_trans with (5 ^ 23); [apply Z.leb_le; vm_compute; reflexivity|apply Z.pow_le_mono_r; lia]).
Qed.
Lemma ten_le p : 2 <= p <= 17 -> 10 ^ (p - 1) <= 10 ^ 16.
Proof. intros. apply Z.pow_le_mono_r; lia. Qed.
Lemma two_to_split f e : standard f -> least f <= e -> two_to e = two_to (least f) * 2 ^ (e - least f).
Proof.
  intros S L. destruct (std_facts f S) as (_ & B & _). unfold two_to. replace (e + 1074) with ((least f + 1074) + (e - least f)) by lia.
  rewrite Z.pow_add_r by lia. generalize (5 ^ 1074) (2 ^ (least f + 1074)) (2 ^ (e - least f)). intros. ring.
Qed.
Lemma std_number f n : standard f -> number_of f n -> n <> 0 ->
  exists m i, 0 <= i /\ 0 <= m < 2 ^ bits f /\ Z.abs n = m * (two_to (least f) * 2 ^ i) /\ two_to (least f) <= Z.abs n.
Proof.
  intros S ((m & e & Hm & He & E) & _) NZ. destruct (std_facts f S) as (_ & _ & B). rewrite (two_to_split f e S He) in E.
  set (c := two_to (least f)) in *. clearbody c. assert (Hc : 0 < c) by (assert (0 < 10 ^ 16) by lia; lia).
  exists (Z.abs m), (e - least f). assert (P2 : 0 < 2 ^ (e - least f)) by (apply Z.pow_pos_nonneg; lia).
  assert (EA : Z.abs n = Z.abs m * (c * 2 ^ (e - least f))) by (rewrite E, Z.abs_mul; f_equal; apply Z.abs_eq; nia).
  split; [lia|]. split; [lia|]. split; [exact EA|]. assert (1 <= Z.abs m) by (destruct (Z.eq_dec m 0) as [->|]; [rewrite Z.mul_0_l in E; congruence|lia]).
  rewrite EA. assert (c * 1 <= c * 2 ^ (e - least f)) by (apply Z.mul_le_mono_nonneg_l; lia). nia.
Qed.
Section Two.
  Context (f : format) (p : Z) (Hf : standard f) (Hp : 2 <= p <= 17).
  Notation c0 := (two_to (least f)).
  Notation D := (to_digits 10 p 1).
  Notation F := (to_digits 2 (bits f) c0).
  Lemma hc : 10 ^ (p - 1) <= c0.
  Proof. destruct (std_facts f Hf) as (_ & _ & B). pose proof (ten_le p Hp). lia. Qed.
  Lemma hb : 1 <= bits f.
  Proof. apply (std_facts f Hf). Qed.
  Lemma put_abs n : put p (Fin n) = Decimal (Z.sgn n * D (Z.abs n)).
  Proof. reflexivity. Qed.
  Lemma nearest_sgn s a : s = 1 \/ s = -1 -> 0 < a -> nearest f (s * a) = s * F a.
  Proof. intros S A. unfold nearest. rewrite Z.sgn_mul, Z.abs_mul, (Z.sgn_pos a), (Z.abs_eq a) by lia. destruct S as [->| ->]; cbn [Z.sgn Z.abs]; rewrite ?Z.mul_1_r, ?Z.mul_1_l; reflexivity. Qed.
  Lemma put_sgn s a : s = 1 \/ s = -1 -> 0 < a -> put p (Fin (s * a)) = Decimal (s * D a).
  Proof. intros S A. unfold put. rewrite Z.sgn_mul, Z.abs_mul, (Z.sgn_pos a), (Z.abs_eq a) by lia. destruct S as [->| ->]; cbn [Z.sgn Z.abs]; rewrite ?Z.mul_1_r, ?Z.mul_1_l; reflexivity. Qed.
  Lemma nz_sgn n : n <> 0 -> (Z.sgn n = 1 \/ Z.sgn n = -1) /\ n = Z.sgn n * Z.abs n.
  Proof. intros H. destruct (Z.lt_trichotomy n 0) as [X|[X|X]]; [|congruence|]; [rewrite Z.sgn_neg, Z.abs_neq by lia|rewrite Z.sgn_pos, Z.abs_eq by lia]; lia. Qed.
  Lemma put_zero : put p (Fin 0) = Decimal 0.
  Proof. reflexivity. Qed.
  Lemma get_zero : get f (Decimal 0) = Some 0.
  Proof.
    unfold get. replace (nearest f 0) with 0 by reflexivity. cbn [Z.abs].
    assert (0 < two_to (limit f)) by (destruct Hf as [->| ->]; apply two_to_pos; cbn [limit double_format float_format]; lia). apply Z.ltb_lt in H. now rewrite H.
  Qed.
  (** what reading the text of [n] gives, before the test for size *)
  Lemma get_put n : number_of f n -> n <> 0 -> exists y, 0 < y /\ y = F (D (Z.abs n)) /\ nearest f (Z.sgn n * D (Z.abs n)) = Z.sgn n * y /\ 0 < D (Z.abs n).
  Proof.
    intros N NZ. destruct (std_number f n Hf N NZ) as (m & i & Hi & Hm & E & L). destruct (nz_sgn n NZ) as [S _].
    destruct (read_pos p (bits f) c0 ltac:(lia) hb hc (Z.abs n) m i L Hi Hm E) as [Y T].
    exists (F (D (Z.abs n))). split; [exact Y|]. split; [reflexivity|]. split; [now apply nearest_sgn|exact T].
  Qed.
End Two.

(** A number in the lower half of the range is read again, and it is off by at most one unit of the last of the p digits *)
Theorem C89_near f p n : standard f -> 2 <= p <= 17 -> number_of f n -> 2 * Z.abs n <= two_to (limit f) ->
  exists y, get f (put p (Fin n)) = Some y /\ Z.abs (y - n) * 10 ^ (p - 1) <= Z.abs n.
Proof.
  intros Hf Hp N L. destruct (Z.eq_dec n 0) as [->|NZ]; [exists 0; split; [apply get_zero; assumption|reflexivity]|].
  destruct (get_put f p Hf Hp n N NZ) as (y & Y0 & YE & GE & _). destruct (std_number f n Hf N NZ) as (m & i & Hi & Hm & E & LB).
  pose proof (near p (bits f) _ ltac:(lia) (hb f Hf) (hc f p Hf Hp) (Z.abs n) m i LB Hi Hm E) as NE. rewrite <- YE in NE.
  destruct (nz_sgn n NZ) as [S EN]. exists (Z.sgn n * y). rewrite put_abs. unfold get. rewrite GE.
  assert (AY : Z.abs (Z.sgn n * y) = y) by (rewrite Z.abs_mul; destruct S as [-> | ->]; cbn [Z.abs]; lia). rewrite AY.
  assert (DI : Z.abs (Z.sgn n * y - n) = Z.abs (y - Z.abs n)) by (rewrite EN at 2; destruct S as [-> | ->]; lia). rewrite DI.
  split; [|exact NE]. assert (10 <= 10 ^ (p - 1)) by (change 10 with (10 ^ 1) at 1; apply Z.pow_le_mono_r; lia).
  destruct (Z.ltb_spec y (two_to (limit f))); [reflexivity|]. exfalso.
  assert (Z.abs (y - Z.abs n) * 10 <= Z.abs (y - Z.abs n) * 10 ^ (p - 1)) by (apply Z.mul_le_mono_nonneg_l; lia). lia.
Qed.
(** A number that has no more than p digits is read exactly *)
Theorem C89_exact f p n : standard f -> 2 <= p <= 17 -> number_of f n -> decimal p n -> get f (put p (Fin n)) = Some n.
Proof.
  intros Hf Hp N (d & j & Hd & Hj & E). destruct (Z.eq_dec n 0) as [->|NZ]; [apply get_zero; assumption|].
  destruct (std_number f n Hf N NZ) as (m & i & Hi & Hm & EB & LB). destruct (nz_sgn n NZ) as [S EN]. destruct (std_facts f Hf) as (HB & _ & HC).
  set (c := two_to (least f)) in *. assert (ED : to_digits 10 p 1 (Z.abs n) = Z.abs n).
  { assert (EA : Z.abs n = Z.abs d * (1 * 10 ^ j)) by (rewrite E, Z.abs_mul, Z.mul_1_l; f_equal; apply Z.abs_eq; apply Z.pow_nonneg; lia).
    rewrite EA. apply rnd_self; [lia|lia|lia|exact Hj|]. lia. }
  assert (EF : to_digits 2 (bits f) c (Z.abs n) = Z.abs n).
  { rewrite EB. apply rnd_self; [lia|exact HB| |exact Hi|exact Hm]. assert (0 < 10 ^ 16) by lia. lia. }
  rewrite put_abs, ED. unfold get. rewrite nearest_sgn by (assumption || lia). fold c. rewrite EF, <- EN. destruct N as [_ LI].
  apply Z.ltb_lt in LI. now rewrite LI.
Qed.
(** Written, read and written again, the text is the same, if the digits are few enough for the format *)
Theorem C89_stable f p n y : standard f -> 2 <= p <= 17 -> 10 ^ p + 5 <= 2 ^ (bits f - 1) -> number_of f n -> n = 0 \/ normal f n ->
  get f (put p (Fin n)) = Some y -> put p (Fin y) = put p (Fin n) /\ get f (put p (Fin y)) = Some y.
Proof.
  intros Hf Hp HB N NO G. assert (put p (Fin y) = put p (Fin n)); [|split; [assumption|now rewrite H]].
  destruct (Z.eq_dec n 0) as [->|NZ]; [rewrite put_zero, (get_zero f Hf) in G; injection G as <-; reflexivity|].
  destruct NO as [->|NO]; [congruence|].
  destruct (get_put f p Hf Hp n N NZ) as (z & Y0 & YE & GE & TP). rewrite put_abs in G. unfold get in G. rewrite GE in G.
  destruct (_ <? _)%Z; [|discriminate]. injection G as <-. destruct (nz_sgn n NZ) as [S EN]. rewrite put_sgn by assumption. rewrite put_abs.
  f_equal. f_equal. subst z. destruct (std_number f n Hf N NZ) as (m & i & Hi & Hm & E & LB).
  apply (stable p (bits f) _ ltac:(lia) (hb f Hf) (hc f p Hf Hp) _ m i LB Hi Hm E).
  apply power_small; [lia|exact (hb f Hf)|exact (hc f p Hf Hp)|exact NO|exact HB].
Qed.
(** ... and with any number of digits unless the text is a power of ten *)
Theorem C89_stable_unless_power f p n v y : standard f -> 2 <= p <= 17 -> number_of f n -> put p (Fin n) = Decimal v ->
  (forall k, 0 <= k -> Z.abs v <> 10 ^ k) -> get f (Decimal v) = Some y -> put p (Fin y) = Decimal v.
Proof.
  intros Hf Hp N PV NP G. destruct (Z.eq_dec n 0) as [->|NZ]; [rewrite put_zero in PV; injection PV as <-; rewrite (get_zero f Hf) in G; injection G as <-; reflexivity|].
  destruct (get_put f p Hf Hp n N NZ) as (z & Y0 & YE & GE & TP). rewrite put_abs in PV. injection PV as <-. unfold get in G. rewrite GE in G.
  destruct (_ <? _)%Z; [|discriminate]. injection G as <-. destruct (nz_sgn n NZ) as [S EN]. rewrite put_sgn by assumption.
  f_equal. f_equal. subst z. destruct (std_number f n Hf N NZ) as (m & i & Hi & Hm & E & LB).
  apply (stable p (bits f) _ ltac:(lia) (hb f Hf) (hc f p Hf Hp) _ m i LB Hi Hm E).
  intros k K T _ _. exfalso. apply (NP (p - 1 + k)); [lia|]. rewrite Z.pow_add_r by lia. rewrite <- T, Z.abs_mul, (Z.abs_eq (to_digits _ _ _ _)) by lia.
  destruct S as [-> | ->]; cbn [Z.abs]; lia.
Qed.
(** A decimal number of p digits, as a user types it, comes back when it is written *)
Theorem C89_typed f p v y : standard f -> 2 <= p <= 17 -> 10 ^ p < 2 ^ (bits f - 1) -> decimal p v -> normal f v ->
  get f (Decimal v) = Some y -> put p (Fin y) = Decimal v.
Proof.
  intros Hf Hp HB (d & j & Hd & Hj & E) NO G. destruct (std_facts f Hf) as (B1 & _ & HC). pose proof (hc f p Hf Hp) as H0.
  unfold normal in NO. set (c := two_to (least f)) in *. assert (PC : 0 < c) by (assert (0 < 10 ^ 16) by lia; lia).
  assert (P2 : 1 <= 2 ^ (bits f - 1)) by (assert (0 < 2 ^ (bits f - 1)) by (apply Z.pow_pos_nonneg; lia); lia).
  assert (NV : c * 2 ^ (bits f - 1) <= Z.abs v) by lia. assert (CV : c <= Z.abs v) by nia.
  assert (ED : to_digits 10 p 1 (Z.abs v) = Z.abs v).
  { assert (EA : Z.abs v = Z.abs d * (1 * 10 ^ j)) by (rewrite E, Z.abs_mul, Z.mul_1_l; f_equal; apply Z.abs_eq; apply Z.pow_nonneg; lia).
    rewrite EA. apply rnd_self; [lia|lia|lia|exact Hj|]. lia. }
  destruct (typed p (bits f) c ltac:(lia) B1 H0 (Z.abs v) NV CV ED HB) as [T Y0].
  assert (NZ : v <> 0) by lia. destruct (nz_sgn v NZ) as [S EN]. unfold get in G. destruct (_ <? _)%Z; [|discriminate]. injection G as <-.
  unfold nearest. fold c. rewrite put_sgn by assumption. rewrite T, <- EN. reflexivity.
Qed.
(** Whole numbers of up to 15 digits as double, of up to 7 digits as float, survive in XML arrays *)
Theorem C89_whole f z : standard f -> Z.abs z < 10 ^ xml_digits f -> get f (put (xml_digits f) (Fin (whole z))) = Some (whole z).
Proof.
  intros Hf H. apply C89_exact; [exact Hf|destruct Hf as [->| ->]; cbn; lia| |].
  - assert (BI : 10 ^ xml_digits f <= 2 ^ limit f) by (destruct Hf as [->| ->]; apply Z.leb_le; vm_compute; reflexivity).
    assert (LF : 0 <= limit f) by (destruct Hf as [->| ->]; cbn [limit double_format float_format]; lia).
    assert (PT : 0 < two_to 0) by (apply two_to_pos; lia). pose proof (two_to_add 0 (limit f) ltac:(lia) LF) as TA. rewrite Z.add_0_l in TA.
    assert (ET : 10 ^ 1074 = two_to 0) by (rewrite (two_to_scale 0 0) by lia; symmetry; apply Z.mul_1_l). unfold whole. rewrite ET. clear ET. split.
    + exists z, 0. split; [|split; [|reflexivity]].
      * destruct Hf as [->| ->]; cbn [bits double_format float_format] in *; [change (10 ^ xml_digits double_format) with 1000000000000000 in H|change (10 ^ xml_digits float_format) with 10000000 in H]; clear -H; lia.
      * destruct Hf as [->| ->]; cbn; clear; lia.
    + rewrite TA. clear TA. revert PT. generalize (two_to 0). intros t PT. rewrite Z.abs_mul, (Z.abs_eq t) by lia. rewrite (Z.mul_comm t). apply Z.mul_lt_mono_pos_r; lia.
  - exists z, 1074. split; [exact H|]. split; [clear; lia|reflexivity].
Qed.

(** ** Arrays *)
Lemma get_all_app f a b ns : get_all f a = (ns, true) -> length ns = length a -> get_all f (a ++ b) = (ns ++ fst (get_all f b), snd (get_all f b)).
Proof.
  revert ns. induction a as [|w a IH]; intros ns H L.
  - cbn [get_all] in H. injection H as <-. cbn [app]. now destruct (get_all f b).
  - cbn [get_all app] in *. destruct (get f w) as [n|].
    + destruct (get_all f a) as [ns' e] eqn:E. injection H as <- ->. cbn [length] in L. rewrite (IH ns' eq_refl) by lia. destruct (get_all f b). reflexivity.
    + injection H as <- _. discriminate.
Qed.
Definition fine (f : format) (n : Z) : Prop := number_of f n /\ 2 * Z.abs n <= two_to (limit f).
Definition close (p n y : Z) : Prop := Z.abs (y - n) * 10 ^ (p - 1) <= Z.abs n.
Lemma xml_digits_range f : standard f -> 2 <= xml_digits f <= 17.
Proof. intros [->| ->]; cbn; lia. Qed.
Lemma write_read f l : standard f -> Forall (fine f) l ->
  exists ys, get_all f (write_array f (map Fin l)) = (ys, true) /\ Forall2 (close (xml_digits f)) l ys /\ Forall2 (fun n y => get f (put (xml_digits f) (Fin n)) = Some y) l ys.
Proof.
  intros Hf. induction 1 as [|n l [N L] _ (ys & E & C & G)]; [exists []; repeat constructor|].
  destruct (C89_near f (xml_digits f) n Hf (xml_digits_range f Hf) N L) as (y & Gy & Cy). exists (y :: ys). unfold write_array in *. cbn [map get_all].
  rewrite Gy, E. split; [reflexivity|]. split; constructor; assumption.
Qed.
(** Arrays, vectors and lists of numbers are read back with the same length and to within one unit of the last digit *)
Theorem C89_array f l : standard f -> Forall (fine f) l ->
  exists ys, read_array f (write_array f (map Fin l)) = Ret ys /\ read_list f (write_array f (map Fin l)) = Ret ys /\ Forall2 (close (xml_digits f)) l ys.
Proof.
  intros Hf H. destruct (write_read f l Hf H) as (ys & E & C & _). exists ys. unfold read_array, read_list. rewrite E. auto.
Qed.
(** Arrays of double: what has been read is written as the same text, and so on for ever *)
Theorem C89_array_stable l ys : Forall (fine double_format) l -> Forall (fun n => n = 0 \/ normal double_format n) l ->
  read_array double_format (write_array double_format (map Fin l)) = Ret ys ->
  write_array double_format (map Fin ys) = write_array double_format (map Fin l).
Proof.
  intros H NO R. assert (Hf : standard double_format) by now left. destruct (write_read _ l Hf H) as (ys' & E & _ & G). unfold read_array in R. rewrite E in R. injection R as <-.
  unfold write_array. rewrite !map_map. clear E. revert H NO. induction G as [|n y l ys G _ IH]; intros H NO; [reflexivity|]. cbn [map].
  inversion H as [|? ? [N L] H']; subst. inversion NO; subst. f_equal; [|now apply IH].
  refine (proj1 (C89_stable double_format _ n y Hf (xml_digits_range _ Hf) _ N _ G)); [apply Z.leb_le; vm_compute; reflexivity|assumption].
Qed.

(** ** Values, computed in small steps *)
Lemma number_is f m e : standard f -> (Z.abs m <? 2 ^ bits f) && (least f <=? e) && (e + bits f <=? limit f) = true -> number_of f (m * two_to e).
Proof.
  intros Hf. rewrite !andb_true_iff, Z.ltb_lt, !Z.leb_le. intros ((A & B) & C). destruct (std_facts f Hf) as (F1 & F2 & _).
  split; [exists m, e; auto|]. pose proof (two_to_pos e ltac:(lia)) as P. rewrite Z.abs_mul, (Z.abs_eq (two_to e)) by lia.
  apply Z.lt_le_trans with (2 ^ bits f * two_to e); [apply Z.mul_lt_mono_pos_r; assumption|]. rewrite Z.mul_comm, <- two_to_add by lia. apply two_to_mono; lia.
Qed.
Lemma fine_is f m e : standard f -> (Z.abs m <? 2 ^ bits f) && (least f <=? e) && (e + bits f + 1 <=? limit f) = true -> fine f (m * two_to e).
Proof.
  intros Hf H. assert (N : number_of f (m * two_to e)).
  { apply number_is; [exact Hf|]. rewrite !andb_true_iff, Z.ltb_lt, !Z.leb_le in *. lia. }
  split; [exact N|]. rewrite !andb_true_iff, Z.ltb_lt, !Z.leb_le in H. destruct H as ((A & B) & C). destruct (std_facts f Hf) as (F1 & F2 & _).
  pose proof (two_to_pos e ltac:(lia)) as P. rewrite Z.abs_mul, (Z.abs_eq (two_to e)) by lia.
  apply Z.le_trans with (two_to (e + (bits f + 1))); [|apply two_to_mono; lia]. rewrite two_to_add by lia. rewrite (Z.pow_add_r 2 (bits f) 1) by lia. change (2 ^ 1) with 2.
  assert (Z.abs m * two_to e <= 2 ^ bits f * two_to e) by (apply Z.mul_le_mono_nonneg_r; lia). lia.
Qed.
Lemma normal_is f m e : standard f -> (2 ^ (bits f - 1) <=? Z.abs m) && (least f <=? e) = true -> normal f (m * two_to e).
Proof.
  intros Hf. rewrite !andb_true_iff, !Z.leb_le. intros (A & B). destruct (std_facts f Hf) as (F1 & F2 & _). unfold normal.
  pose proof (two_to_pos e ltac:(lia)) as P. rewrite Z.abs_mul, (Z.abs_eq (two_to e)) by lia. pose proof (two_to_mono (least f) e ltac:(lia) B). pose proof (two_to_pos (least f) ltac:(lia)).
  apply Z.mul_le_mono_nonneg; try lia; try (apply Z.pow_nonneg; lia).
Qed.
Lemma normal_at f k e N : standard f -> 0 <= k <= 1074 ->
  (least f + bits f - 1 <=? e) && (- k <=? e) && (2 ^ (e + k) * 5 ^ k <=? Z.abs N) = true -> normal f (N * 10 ^ (1074 - k)).
Proof.
  intros Hf K. rewrite !andb_true_iff, !Z.leb_le. intros ((A & B) & C). destruct (std_facts f Hf) as (F1 & F2 & _). unfold normal.
  rewrite Z.mul_comm, <- two_to_add by lia. apply Z.le_trans with (two_to e); [apply two_to_mono; lia|]. rewrite (two_to_scale k e) by lia.
  assert (0 < 10 ^ (1074 - k)) by (apply Z.pow_pos_nonneg; lia). rewrite Z.abs_mul, (Z.abs_eq (10 ^ (1074 - k))) by lia. apply Z.mul_le_mono_nonneg_r; lia.
Qed.
(** the text of N * 10^-k *)
Lemma put_at p k N m j : 0 <= k <= 1074 ->
  (1 <=? p) && (0 <? N) && (0 <=? j) && (10 ^ (p - 1) <=? m) && (m <? 10 ^ p) && (2 * Z.abs (N - m * 10 ^ j) <? 10 ^ j)
    && ((10 ^ (p - 1) <? m) || (m * 10 ^ j <=? N) || (20 * (m * 10 ^ j - N) <=? 10 ^ j)) = true ->
  put p (Fin (N * 10 ^ (1074 - k))) = Decimal (m * 10 ^ j * 10 ^ (1074 - k)).
Proof.
  intros K. rewrite !andb_true_iff, !orb_true_iff, !Z.ltb_lt, !Z.leb_le. intros ((((((A & B) & C) & D) & E) & F) & G).
  assert (T : 0 < 10 ^ (1074 - k)) by (apply Z.pow_pos_nonneg; lia). set (t := 10 ^ (1074 - k)) in *. assert (P : 0 < N * t) by (apply Z.mul_pos_pos; lia).
  unfold put. rewrite Z.sgn_pos, Z.abs_eq, Z.mul_1_l by lia. f_equal. assert (EJ : 1 * 10 ^ (j + (1074 - k)) = 10 ^ j * t) by (unfold t; rewrite Z.pow_add_r by lia; ring).
  replace (m * 10 ^ j * t) with (m * (1 * 10 ^ (j + (1074 - k)))) by (rewrite EJ; ring).
  apply (rnd_is 10 p 1 ltac:(lia) eq_refl A ltac:(lia)); [lia|lia|lia| |]; rewrite EJ.
  - left. replace (N * t - m * (10 ^ j * t)) with ((N - m * 10 ^ j) * t) by ring. rewrite Z.abs_mul, (Z.abs_eq t) by lia. rewrite Z.mul_assoc. apply Z.mul_lt_mono_pos_r; assumption.
  - intros EM L. right. destruct G as [[G|G]|G]; [lia| |].
    + exfalso. assert (m * 10 ^ j * t <= N * t) by (apply Z.mul_le_mono_nonneg_r; lia). lia.
    + replace (2 * 10 * (m * (10 ^ j * t) - N * t)) with (20 * (m * 10 ^ j - N) * t) by ring. apply Z.mul_le_mono_nonneg_r; lia.
Qed.
(** the number nearest to N * 10^-k *)
Lemma nearest_at f k N m e : standard f -> 0 <= k <= 1074 ->
  (0 <? N) && (least f <=? e) && (- k <=? e) && (2 ^ (bits f - 1) <=? m) && (m <? 2 ^ bits f) && (2 * Z.abs (N - m * (2 ^ (e + k) * 5 ^ k)) <? 2 ^ (e + k) * 5 ^ k)
    && ((2 ^ (bits f - 1) <? m) || (m * (2 ^ (e + k) * 5 ^ k) <=? N)) = true ->
  nearest f (N * 10 ^ (1074 - k)) = m * two_to e.
Proof.
  intros Hf K. rewrite !andb_true_iff, !orb_true_iff, !Z.ltb_lt, !Z.leb_le. intros ((((((A & B) & C) & D) & E) & F) & G).
  destruct (std_facts f Hf) as (F1 & F2 & _). assert (T : 0 < 10 ^ (1074 - k)) by (apply Z.pow_pos_nonneg; lia).
  assert (P : 0 < N * 10 ^ (1074 - k)) by (apply Z.mul_pos_pos; lia). unfold nearest. rewrite Z.sgn_pos, Z.abs_eq, Z.mul_1_l by lia.
  assert (EE : two_to e = two_to (least f) * 2 ^ (e - least f)) by (rewrite <- two_to_add by lia; f_equal; lia).
  rewrite EE. pose proof (two_to_pos (least f) ltac:(lia)) as P0. apply (rnd_is 2 (bits f) (two_to (least f)) ltac:(lia) eq_refl F1 P0); [lia|lia|lia| |]; rewrite <- EE, (two_to_scale k e) by lia;
    set (t := 10 ^ (1074 - k)) in *; set (g := 2 ^ (e + k) * 5 ^ k) in *.
  - left. replace (N * t - m * (g * t)) with ((N - m * g) * t) by ring. rewrite Z.abs_mul, (Z.abs_eq t) by lia. rewrite Z.mul_assoc. apply Z.mul_lt_mono_pos_r; assumption.
  - intros EM L. exfalso. destruct G as [G|G]; [lia|]. assert (m * g * t <= N * t) by (apply Z.mul_le_mono_nonneg_r; lia). lia.
Qed.
Lemma get_at f v m e : standard f -> nearest f v = m * two_to e -> (0 <=? m) && (m <? 2 ^ bits f) && (least f <=? e) && (e + bits f <=? limit f) = true -> get f (Decimal v) = Some (m * two_to e).
Proof.
  intros Hf E H. rewrite !andb_true_iff, Z.ltb_lt, !Z.leb_le in H. assert (N : number_of f (m * two_to e)).
  { apply number_is; [exact Hf|]. rewrite !andb_true_iff, Z.ltb_lt, !Z.leb_le. lia. }
  destruct N as [_ N]. unfold get. rewrite E. apply Z.ltb_lt in N. now rewrite N.
Qed.
Lemma get_above f v m e : standard f -> nearest f v = m * two_to e -> (2 ^ (bits f - 1) <=? m) && (least f <=? e) && (limit f <? e + bits f) = true -> get f (Decimal v) = None.
Proof.
  intros Hf E H. rewrite !andb_true_iff, Z.ltb_lt, !Z.leb_le in H. destruct H as ((A & B) & C). destruct (std_facts f Hf) as (F1 & F2 & _). unfold get. rewrite E.
  pose proof (two_to_pos e ltac:(lia)) as P. destruct (Z.ltb_spec (Z.abs (m * two_to e)) (two_to (limit f))) as [L|L]; [|reflexivity]. exfalso.
  assert (0 <= 2 ^ (bits f - 1)) by (apply Z.pow_nonneg; lia). rewrite Z.abs_mul, (Z.abs_eq m), (Z.abs_eq (two_to e)) in L by lia.
  assert (two_to (limit f) <= two_to (e + (bits f - 1))) by (apply two_to_mono; [destruct Hf as [->| ->]; cbn [limit double_format float_format]; lia|lia]). rewrite two_to_add in H0 by lia.
  assert (two_to e * 2 ^ (bits f - 1) <= two_to e * m) by (apply Z.mul_le_mono_nonneg_l; lia). lia.
Qed.
Lemma get_neg f v y : get f (Decimal v) = Some y -> get f (Decimal (- v)) = Some (- y).
Proof.
  unfold get. assert (E : nearest f (- v) = - nearest f v) by (unfold nearest; rewrite Z.sgn_opp, Z.abs_opp; generalize (to_digits 2 (bits f) (two_to (least f)) (Z.abs v)); intros; ring).
  rewrite E, Z.abs_opp. destruct (Z.abs (nearest f v) <? two_to (limit f)); [|discriminate]. congruence.
Qed.
Lemma std_double : standard double_format.
Proof. now left. Qed.
Lemma std_float : standard float_format.
Proof. now right. Qed.

(** ** Text files *)
(** A number written to a text file, down to the smallest subnormal one: what is read differs from it by no more than one part
    in 10^5, and from zero only if the number does. *)
Theorem C89_text_file m e :
  (Z.abs m < 2 ^ 53 -> -1074 <= e <= 970 ->
     exists y, get double_format (put (file_digits double_format) (Fin (m * two_to e))) = Some y /\ Z.abs (y - m * two_to e) * 10 ^ 5 <= Z.abs (m * two_to e)) /\
  (Z.abs m < 2 ^ 24 -> -149 <= e <= 103 ->
     exists y, get float_format (put (file_digits float_format) (Fin (m * two_to e))) = Some y /\ Z.abs (y - m * two_to e) * 10 ^ 5 <= Z.abs (m * two_to e)).
Proof.
  split; intros M E.
  - assert (F : fine double_format (m * two_to e)).
    { apply fine_is; [exact std_double|]. cbn [bits least limit double_format]. rewrite !andb_true_iff, Z.ltb_lt, !Z.leb_le. lia. }
    destruct F as [F1 F2]. exact (C89_near double_format 6 _ std_double ltac:(lia) F1 F2).
  - assert (F : fine float_format (m * two_to e)).
    { apply fine_is; [exact std_float|]. cbn [bits least limit float_format]. rewrite !andb_true_iff, Z.ltb_lt, !Z.leb_le. lia. }
    destruct F as [F1 F2]. exact (C89_near float_format 6 _ std_float ltac:(lia) F1 F2).
Qed.
(** What was read from a text file is written again as the same text. *)
Theorem C89_text_file_stable f n y : standard f -> number_of f n -> n = 0 \/ normal f n ->
  get f (put (file_digits f) (Fin n)) = Some y -> put (file_digits f) (Fin y) = put (file_digits f) (Fin n).
Proof.
  intros Hf N NO G. refine (proj1 (C89_stable f 6 n y Hf ltac:(lia) _ N NO G)). destruct Hf as [->| ->]; apply Z.leb_le; vm_compute; reflexivity.
Qed.

(** ** What is lost *)
(** FALSE: numbers read from an array are those written. 1 and the next number have the same text. *)
Theorem C89_same_text_refuted :
  (number_of double_format (two_to 0 + two_to (-52)) /\ put 15 (Fin (two_to 0 + two_to (-52))) = put 15 (Fin (two_to 0))) /\
  (number_of float_format (two_to 0 + two_to (-23)) /\ put 7 (Fin (two_to 0 + two_to (-23))) = put 7 (Fin (two_to 0))).
Proof.
  split; split.
  - replace (two_to 0 + two_to (-52)) with ((2 ^ 52 + 1) * two_to (-52)) by (pose proof (two_to_add (-52) 52 ltac:(lia) ltac:(lia)) as E; change (-52 + 52) with 0 in E; rewrite E; ring).
    apply number_is; [exact std_double|vm_compute; reflexivity].
  - rewrite (two_to_scale 52 0), (two_to_scale 52 (-52)) by lia. rewrite <- Z.mul_add_distr_r.
    rewrite (put_at 15 52 _ (10 ^ 14) 38); [|lia|vm_compute; reflexivity]. rewrite (put_at 15 52 _ (10 ^ 14) 38); [|lia|vm_compute; reflexivity]. reflexivity.
  - replace (two_to 0 + two_to (-23)) with ((2 ^ 23 + 1) * two_to (-23)) by (pose proof (two_to_add (-23) 23 ltac:(lia) ltac:(lia)) as E; change (-23 + 23) with 0 in E; rewrite E; ring).
    apply number_is; [exact std_float|vm_compute; reflexivity].
  - rewrite (two_to_scale 23 0), (two_to_scale 23 (-23)) by lia. rewrite <- Z.mul_add_distr_r.
    rewrite (put_at 7 23 _ (10 ^ 6) 17); [|lia|vm_compute; reflexivity]. rewrite (put_at 7 23 _ (10 ^ 6) 17); [|lia|vm_compute; reflexivity]. reflexivity.
Qed.
(** FALSE for float: what has been read is written as the same text. The float 1.00000006e28 is written as 1e+28, read as
    9.9999994e27 and written as 9.999999e+27. *)
Definition drifting : Z := 8470330 * two_to 70.
Theorem C89_float_drifts_refuted :
  number_of float_format drifting /\ normal float_format drifting /\
  put 7 (Fin drifting) = Decimal (whole (10 ^ 28)) /\
  get float_format (put 7 (Fin drifting)) = Some (8470329 * two_to 70) /\
  put 7 (Fin (8470329 * two_to 70)) = Decimal (whole (9999999 * 10 ^ 21)).
Proof.
  assert (T : put 7 (Fin drifting) = Decimal (whole (10 ^ 28))).
  { unfold drifting, whole. rewrite (two_to_scale 0 70) by lia. rewrite !Z.mul_assoc. rewrite (put_at 7 0 _ (10 ^ 6) 22); [|lia|vm_compute; reflexivity]. reflexivity. }
  split; [apply number_is; [exact std_float|vm_compute; reflexivity]|]. split; [apply normal_is; [exact std_float|vm_compute; reflexivity]|].
  split; [exact T|]. split.
  - rewrite T. apply get_at; [exact std_float| |vm_compute; reflexivity]. exact (nearest_at float_format 0 (10 ^ 28) 8470329 70 std_float ltac:(lia) ltac:(vm_compute; reflexivity)).
  - rewrite (two_to_scale 0 70) by lia. rewrite !Z.mul_assoc. rewrite (put_at 7 0 _ 9999999 21); [|lia|vm_compute; reflexivity]. reflexivity.
Qed.
(** FALSE for float: a number typed with 7 digits is written as it was typed. Two such texts near 8.59e9 are the same float. *)
Theorem C89_float_typed_refuted : exists v v' y, v <> v' /\ decimal 7 v /\ decimal 7 v' /\ normal float_format v /\
  get float_format (Decimal v) = Some y /\ get float_format (Decimal v') = Some y.
Proof.
  assert (P : 0 < 10 ^ 1074) by (apply Z.pow_pos_nonneg; lia).
  assert (W : forall a b, a <> b -> whole a <> whole b) by (intros a b AB H0; unfold whole in H0; apply Z.mul_reg_r in H0; [contradiction|apply not_eq_sym, Z.lt_neq; exact P]). clear P.
  assert (DW : forall a, (a <? 10 ^ 7) && (0 <=? a) = true -> decimal 7 (whole (a * 10 ^ 3))).
  { intros a. rewrite andb_true_iff, Z.ltb_lt, Z.leb_le. intros [A1 A2]. exists a, (3 + 1074). split; [rewrite Z.abs_eq; assumption|]. split; [exact (Zle_0_pos 1077)|]. unfold whole. rewrite (Z.pow_add_r 10 3 1074); [symmetry; apply Z.mul_assoc|exact (Zle_0_pos 3)|exact (Zle_0_pos 1074)]. }
  exists (whole 8589973000), (whole 8589974000), ((2 ^ 23 + 38) * two_to 10).
  split; [apply W; discriminate|]. clear W. split; [exact (DW 8589973 eq_refl)|]. split; [exact (DW 8589974 eq_refl)|]. clear DW.
  split; [exact (normal_at float_format 0 0 8589973000 std_float ltac:(lia) ltac:(vm_compute; reflexivity))|]. split; (apply get_at; [exact std_float| |vm_compute; reflexivity]).
  - exact (nearest_at float_format 0 8589973000 (2 ^ 23 + 38) 10 std_float ltac:(lia) ltac:(vm_compute; reflexivity)).
  - exact (nearest_at float_format 0 8589974000 (2 ^ 23 + 38) 10 std_float ltac:(lia) ltac:(vm_compute; reflexivity)).
Qed.
(** FALSE: every finite double that is written can be read. The text of the largest is above the range: as the last element of
    an array it is dropped without a word, anywhere else it makes the array unreadable; a std::list ends there. *)
Definition largest : Z := (2 ^ 53 - 1) * two_to 971.
Lemma largest_text : get double_format (put 15 (Fin largest)) = None.
Proof.
  assert (E : largest = (2 ^ 53 - 1) * (2 ^ (971 + 0) * 5 ^ 0) * 10 ^ (1074 - 0)) by (unfold largest; rewrite (two_to_scale 0 971) by lia; apply Z.mul_assoc).
  rewrite E. clear E.
  assert (P : put 15 (Fin ((2 ^ 53 - 1) * (2 ^ (971 + 0) * 5 ^ 0) * 10 ^ (1074 - 0))) = Decimal (179769313486232 * 10 ^ 294 * 10 ^ (1074 - 0))).
  { apply put_at; [lia|].
    vm_compute. reflexivity. }
  rewrite P. clear P.
  assert (N : nearest double_format (179769313486232 * 10 ^ 294 * 10 ^ (1074 - 0)) = (2 ^ 52 + 10) * two_to 972).
  { apply nearest_at; [exact std_double|lia|].
    vm_compute. reflexivity. }
  assert (C : (2 ^ (bits double_format - 1) <=? 2 ^ 52 + 10) && (least double_format <=? 972) && (limit double_format <? 972 + bits double_format) = true) by (vm_compute; reflexivity).
  revert N C. generalize (179769313486232 * 10 ^ 294 * 10 ^ (1074 - 0)) (2 ^ 52 + 10). intros v m N C.
  exact (get_above double_format v m 972 std_double N C).
Qed.
Theorem C89_largest_refuted : number_of double_format largest /\
  forall l, Forall (fine double_format) l ->
  (exists ys, length ys = length l /\ read_array double_format (write_array double_format (map Fin l ++ [Fin largest])) = Ret ys) /\
  (forall x m, read_array double_format (write_array double_format (map Fin l ++ Fin largest :: x :: m)) = Raise) /\
  (forall m, exists ys, length ys = length l /\ read_list double_format (write_array double_format (map Fin l ++ Fin largest :: m)) = Ret ys).
Proof.
  split; [apply number_is; [exact std_double|vm_compute; reflexivity]|]. intros l H. assert (Hf : standard double_format) by now left.
  destruct (write_read _ l Hf H) as (ys & E & C & _). assert (L : length ys = length l) by (symmetry; revert C; clear; induction 1; cbn; congruence).
  pose proof largest_text as LT. change 15 with (xml_digits double_format) in LT. remember largest as big eqn:EB. clear EB.
  assert (G : forall m, get_all double_format (write_array double_format (map Fin l ++ Fin big :: m)) = (ys, match m with [] => true | _ => false end)).
  { intros m. unfold write_array in *. rewrite map_app. rewrite (get_all_app _ _ _ ys E) by (rewrite !map_length; exact L). cbn [map get_all]. rewrite LT.
    cbn [fst snd]. rewrite app_nil_r. f_equal. destruct m; reflexivity. }
  split; [|split]; intros; unfold read_array, read_list; rewrite ?G; [exists ys|reflexivity|exists ys]; split; auto.
Qed.
(** FALSE: infinities and NaN that are written can be read: arrays become unreadable and lists end there *)
Theorem C89_infinite_refuted f l b m : standard f -> Forall (fine f) l -> b = Infinite \/ b = NotANumber ->
  read_array f (write_array f (map Fin l ++ b :: m)) = Raise /\
  exists ys, length ys = length l /\ read_list f (write_array f (map Fin l ++ b :: m)) = Ret ys.
Proof.
  intros Hf H Hb. destruct (write_read _ l Hf H) as (ys & E & C & _). assert (L : length ys = length l) by (symmetry; revert C; clear; induction 1; cbn; congruence).
  assert (G : get_all f (write_array f (map Fin l ++ b :: m)) = (ys, false)).
  { unfold write_array in *. rewrite map_app. rewrite (get_all_app _ _ _ ys E) by (rewrite !map_length; exact L). cbn [map get_all].
    destruct Hb as [->| ->]; cbn [put get fst snd]; rewrite app_nil_r; reflexivity. }
  unfold read_array, read_list. rewrite G. split; [reflexivity|]. exists ys. auto.
Qed.

(** ** Cases that meet the hypotheses *)
Example C89_case_third : fine double_format (6004799503160661 * two_to (-54)) /\ normal double_format (6004799503160661 * two_to (-54)) /\
  put 15 (Fin (6004799503160661 * two_to (-54))) = Decimal (333333333333333 * 10 ^ 1059).
Proof.
  split; [apply fine_is; [exact std_double|vm_compute; reflexivity]|]. split; [apply normal_is; [exact std_double|vm_compute; reflexivity]|].
  rewrite (two_to_scale 54 (-54)) by lia. rewrite !Z.mul_assoc. rewrite (put_at 15 54 _ 333333333333333 39); [|lia|vm_compute; reflexivity].
  rewrite <- Z.mul_assoc, <- Z.pow_add_r by lia. reflexivity.
Qed.
Example C89_case_typed : decimal 15 (- 1 * 10 ^ 1073) /\ normal double_format (- 1 * 10 ^ 1073) /\
  get double_format (Decimal (- 1 * 10 ^ 1073)) = Some (- (7205759403792794 * two_to (-56))) /\ 10 ^ 15 + 5 <= 2 ^ (bits double_format - 1).
Proof.
  split; [exact (ex_intro _ (-1) (ex_intro _ 1073 (conj (eq_refl : Z.abs (-1) < 10 ^ 15) (conj (Zle_0_pos 1073) eq_refl))))|].
  assert (E : 10 ^ 1073 = 10 ^ 55 * 10 ^ (1074 - 56)) by (change 1073 with (55 + (1074 - 56)); apply Z.pow_add_r; lia).
  assert (E1 : - 1 * 10 ^ 1073 = - (10 ^ 55 * 10 ^ (1074 - 56))) by (rewrite E; generalize (10 ^ 55) (10 ^ (1074 - 56)); intros; ring).
  assert (E2 : - (10 ^ 55 * 10 ^ (1074 - 56)) = - 10 ^ 55 * 10 ^ (1074 - 56)) by (generalize (10 ^ 55) (10 ^ (1074 - 56)); intros; ring).
  split; [rewrite E1, E2; apply (normal_at _ 56 (-56)); [exact std_double|lia|vm_compute; reflexivity]|].
  split; [|apply Z.leb_le; vm_compute; reflexivity]. rewrite E1. clear E E1 E2. apply get_neg.
  assert (N : nearest double_format (10 ^ 55 * 10 ^ (1074 - 56)) = 7205759403792794 * two_to (-56)) by (apply nearest_at; [exact std_double|lia|vm_compute; reflexivity]).
  exact (get_at double_format _ _ _ std_double N ltac:(vm_compute; reflexivity)).
Qed.
Example C89_case_file : file_digits float_format = 6 /\ 10 ^ 6 + 5 <= 2 ^ (bits float_format - 1).
Proof. split; [reflexivity|apply Z.leb_le; vm_compute; reflexivity]. Qed.

Print Assumptions C89_text_file.
Print Assumptions C89_text_file_stable.
Print Assumptions C89_near.
Print Assumptions C89_exact.
Print Assumptions C89_stable.
Print Assumptions C89_stable_unless_power.
Print Assumptions C89_typed.
Print Assumptions C89_whole.
Print Assumptions C89_array.
Print Assumptions C89_array_stable.
Print Assumptions C89_same_text_refuted.
Print Assumptions C89_float_drifts_refuted.
Print Assumptions C89_float_typed_refuted.
Print Assumptions C89_largest_refuted.
Print Assumptions C89_infinite_refuted.

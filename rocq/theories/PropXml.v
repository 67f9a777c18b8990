(** C86: what is written to XML is read back; what is not. *)
From Coq Require Import String List Arith NArith ZArith Bool Sorted Ascii Lia.
From Verif Require Import Base NerscHeader NerscText XmlModel XmlSpec XmlProofs XmlRound XmlOne XmlMaps.
Import ListNotations.
Local Open Scope nat_scope.
Local Notation length := List.length.

Definition name_of (e : string * ty * value) : string := fst (fst e).
Definition enc3 (e : string * ty * value) : xml := let '(s, t, v) := e in enc t s v.
Definition good3 (e : string * ty * value) : Prop := let '(s, t, v) := e in legal s = true /\ has t v.

Lemma write_doc_ok root l : legal root = true -> Forall good3 l ->
  write_doc root l = Ret [Elem "" [] [Elem root [] (map enc3 l)]] /\
  open_reader [Elem "" [] [Elem root [] (map enc3 l)]] = Ret (Elem "" [] [Elem root [] (map enc3 l)]).
Proof.
  intros HR HF. split.
  - unfold write_doc. cbn [obind open_tag]. rewrite (ofold_append _ enc3); [reflexivity|].
    intros [[s t] v] n x k w He. rewrite Forall_forall in HF. apply write_enc. now apply (HF _ He).
  - unfold open_reader. assert (S : sound (Elem root [] (map enc3 l)) = true).
    { apply sound_node; [exact HR|]. apply Forall_map. eapply Forall_impl; [|exact HF]. intros [[s t] v] [H1 H2]. now apply sound_enc. }
    now rewrite S.
Qed.
Lemma select_root root l : select (Elem "" [] [Elem root [] l]) (down root) = [Elem root [] l].
Proof. rewrite select_down. cbn [xkids filter xname]. now rewrite String.eqb_refl. Qed.
Lemma enc3_name e : xname (enc3 e) = name_of e.
Proof. destruct e as [[s t] v]. apply enc_name. Qed.
Lemma filter_names s l : filter (fun k => String.eqb (xname k) s) (map enc3 l) = map enc3 (filter (fun e => String.eqb (name_of e) s) l).
Proof.
  induction l as [|e l IH]; [reflexivity|]. cbn [map filter]. rewrite enc3_name. destruct (String.eqb (name_of e) s); [|exact IH].
  cbn [map]. now rewrite IH.
Qed.
Lemma filter_unique s l e : NoDup (map name_of l) -> In e l -> name_of e = s -> filter (fun e => String.eqb (name_of e) s) l = [e].
Proof.
  induction l as [|a l IH]; intros ND HI E; [contradiction|]. cbn [map] in ND. inversion ND as [|? ? N1 N2]; subst. cbn [filter].
  assert (Z : forall l, ~ In (name_of e) (map name_of l) -> filter (fun e' => String.eqb (name_of e') (name_of e)) l = []).
  { clear. induction l as [|a l IH]; intros H; [reflexivity|]. cbn [filter map In] in *. destruct (String.eqb_spec (name_of a) (name_of e)); [tauto|]. apply IH. tauto. }
  destruct HI as [->|HI].
  - rewrite String.eqb_refl. now rewrite Z.
  - destruct (String.eqb_spec (name_of a) (name_of e)) as [E|E]; [|now apply IH].
    exfalso. apply N1. rewrite E. now apply in_map.
Qed.

(** Values of any type, written under different names in a document, are read back, through the document or through a
    reader for the part that holds them, in any order and any number of times. *)
Theorem C86_round_trip root l : legal root = true -> NoDup (map name_of l) ->
  Forall (fun e => let '(s, t, v) := e in legal s = true /\ readable t /\ has t v) l ->
  exists w d r, write_doc root l = Ret w /\ open_reader w = Ret d /\ node_at d (down root) = Ret r /\
  forall s t v, In (s, t, v) l -> read t d (down root ++ down s) = Ret v /\ read t r (down s) = Ret v.
Proof.
  intros HR ND HF. assert (HG : Forall good3 l).
  { eapply Forall_impl; [|exact HF]. intros [[s t] v] (H1 & _ & H2). now split. }
  destruct (write_doc_ok root l HR HG) as [W O]. eexists. eexists. exists (Elem root [] (map enc3 l)).
  split; [exact W|]. split; [exact O|]. split; [apply node_one; apply select_root|].
  intros s t v HI. rewrite Forall_forall in HF. destruct (HF _ HI) as (L & R & H).
  assert (S : select (Elem root [] (map enc3 l)) (down s) = [enc t s v]).
  { rewrite select_down. cbn [xkids]. rewrite filter_names, (filter_unique s l (s, t, v) ND HI eq_refl). reflexivity. }
  split; [|now apply (read_enc t s)].
  apply (read_enc t s); [exact R|exact H|]. now rewrite (select_one _ _ _ _ (select_root root _)).
Qed.

(** The format of the document *)
Theorem C86_format root l : legal root = true -> Forall good3 l ->
  write_doc root l = Ret [Elem "" [] [Elem root [] (map (fun e => let '(s, t, v) := e in enc t s v) l)]].
Proof. intros HR HF. now apply write_doc_ok. Qed.

(** One number or truth value: the text has to be a number of the type (or true, false) and white space, else the reader throws. *)
Theorem C86_number k x p n : node_at x p = Ret n ->
  (forall z, read (TNum k) x p = Ret (VNum z) <-> one_number k (xtext n) z) /\
  ((forall z, ~ one_number k (xtext n) z) -> read (TNum k) x p = Raise).
Proof.
  intros E. cbn [read]. rewrite E. cbn [obind]. split.
  - intros z. rewrite <- get_num_one. split; intros H.
    + destruct (get_num k (xtext n)) as [z'| | |]; cbn [obind] in H; inversion H; reflexivity.
    + now rewrite H.
  - intros H. rewrite get_num_raise; [reflexivity|]. intros z Hz. apply (H z). now apply get_num_one.
Qed.
(** What is not there, or not once, cannot be read. *)
Theorem C86_missing t x p : (forall n, select x p <> [n]) -> (forall t', t <> TComplex t') -> t <> TSeed -> read t x p = Raise.
Proof.
  intros H HC HS. assert (E : node_at x p = Raise).
  { unfold node_at. destruct (select x p) as [|a [|b l]] eqn:S; try reflexivity. now destruct (H a). }
  destruct t as [| |k|c t'|tk tv|ta tb|t'|]; cbn [read]; rewrite ?E; try reflexivity; [destruct t', c; reflexivity|now destruct (HC t')|congruence].
Qed.
(** A character is the first one of the text of its element, and the zero character if there is no text *)
Theorem C86_char x p n : select x p = [n] ->
  (forall c rest, xtext n = c :: rest -> read TChar x p = Ret (VStr [c])) /\ (xtext n = [] -> read TChar x p = Ret (VStr [0%N])).
Proof. intros H. cbn [read]. unfold node_at. rewrite H. cbn [obind]. split; [intros c rest E|intros E]; rewrite E; reflexivity. Qed.

Theorem C86_absent t : forall x p, select x p = [] -> read t x p = Raise.
Proof.
  induction t as [| |k|c t IH|tk IHk tv IHv|ta IHa tb IHb|t IH|]; intros x p H;
    assert (E : forall q, select x (p ++ q) = []) by (intros q; rewrite select_app, H; reflexivity);
    cbn [read]; unfold node_at; rewrite ?H, ?E; try reflexivity.
  - destruct t, c; reflexivity.
  - rewrite (IH x (p ++ down "re")) by apply E. reflexivity.
Qed.

(** A value written twice under one name cannot be read: neither is taken, the reader throws. *)
Theorem C86_twice root l s t v v' : legal root = true -> Forall good3 l -> legal s = true -> has t v -> has t v' ->
  exists w d, write_doc root (l ++ [(s, t, v); (s, t, v')]) = Ret w /\ open_reader w = Ret d /\
  forall t', (forall t0, t' <> TComplex t0) -> t' <> TSeed -> read t' d (down root ++ down s) = Raise.
Proof.
  intros HR HF L H H'.
  destruct (write_doc_ok root (l ++ [(s, t, v); (s, t, v')]) HR) as [W O].
  { apply Forall_app. split; [exact HF|]. constructor; [now split|]. constructor; [now split|constructor]. }
  eexists. eexists. split; [exact W|]. split; [exact O|]. intros t' HC HS.
  assert (S : node_at (Elem "" [] [Elem root [] (map enc3 (l ++ [(s, t, v); (s, t, v')]))]) (down root ++ down s) = Raise).
  { unfold node_at. rewrite (select_one _ _ _ _ (select_root root _)). rewrite select_down. cbn [xkids]. rewrite filter_names, filter_app, map_app.
    cbn [filter name_of fst]. rewrite String.eqb_refl. cbn [map]. destruct (map enc3 (filter _ l)) as [|a [|b m]]; reflexivity. }
  destruct t' as [| |k|c t'|tk tv|ta tb|t'|]; cbn [read]; rewrite ?S; try reflexivity.
  - destruct t', c; reflexivity.
  - now destruct (HC t').
  - congruence.
Qed.

(** std::list of anything but numbers: reading gives the empty list, whatever the document says. *)
Theorem C86_list_refuted t : is_word t = false ->
  (forall x p n, node_at x p = Ret n -> read (TSeq StdList t) x p = Ret (VSeq [])) /\
  (forall root s v l, legal root = true -> legal s = true -> has t v -> Forall (has t) l ->
     exists w d, write_doc root [(s, TSeq StdList t, VSeq (v :: l))] = Ret w /\ open_reader w = Ret d /\
       read (TSeq StdList t) d (down root ++ down s) = Ret (VSeq []) /\ VSeq [] <> VSeq (v :: l)).
Proof.
  intros W.
  assert (A : forall x p n, node_at x p = Ret n -> read (TSeq StdList t) x p = Ret (VSeq [])).
  { intros x p n E. assert (X : read (TSeq StdList t) x p = obind (node_at x p) (fun top => obind (read_list (read t) top) (fun l => Ret (VSeq l)))).
    { destruct t; reflexivity || discriminate. }
    rewrite X, E. cbn [obind]. reflexivity. }
  split; [exact A|]. intros root s v l HR HS Hv Hl.
  destruct (write_doc_ok root [(s, TSeq StdList t, VSeq (v :: l))] HR) as [Wd O].
  { constructor; [|constructor]. split; [exact HS|]. cbn [has]. now constructor. }
  eexists. eexists. split; [exact Wd|]. split; [exact O|]. split; [|discriminate].
  eapply A. apply node_one. rewrite (select_one _ _ _ _ (select_root root _)), select_down. cbn [xkids map enc3 filter]. rewrite enc_name.
  now rewrite String.eqb_refl.
Qed.

(** Arrays, vectors and lists of numbers: any text made of numerals with white space around them is read as these numbers. *)
Theorem C86_words c k x p n zs : node_at x p = Ret n -> spelled k (xtext n) zs -> read (TSeq c (TNum k)) x p = Ret (VSeq (map VNum zs)).
Proof.
  intros E H. destruct (spelled_read k _ _ H) as [A B]. destruct c; cbn [read]; rewrite E; cbn [obind]; now rewrite ?A, ?B.
Qed.

(** Numerals followed by something that is no number of the type.  If that is the end of the text, a lone sign or a number out
    of range goes unnoticed; if something follows, or if it starts with another character, arrays and vectors are refused, and lists end there. *)
Theorem C86_tail_dropped_refuted c k x p n s zs sp bad : node_at x p = Ret n -> spelled k s zs -> spaces sp -> (s = [] \/ sp <> []) -> no_number k bad ->
  xtext n = s ++ sp ++ bad -> read (TSeq c (TNum k)) x p = Ret (VSeq (map VNum zs)).
Proof.
  intros E H Hsp Hd Hb ET.
  destruct (after_spelled k s zs sp bad true H Hsp Hd) as [A B].
  { intros w Hw. pose proof (no_number_extract k bad w [] Hb Hw stops_nil) as X. now rewrite app_nil_r in X. }
  destruct c; cbn [read]; rewrite E; cbn [obind]; rewrite ET; unfold read_words, read_list_words; rewrite A; cbn [negb obind fst]; rewrite ?B; reflexivity.
Qed.
Theorem C86_bad_refused k x p n s zs sp g : node_at x p = Ret n -> spelled k s zs -> spaces sp -> (s = [] \/ sp <> []) -> xtext n = s ++ sp ++ g ->
  (exists bad c r, g = bad ++ c :: r /\ no_number k bad /\ ~ (48 <= c <= 57)%N) \/
  (exists c r, g = c :: r /\ is_space c = false /\ ~ (48 <= c <= 57)%N /\ c <> 45%N /\ c <> 43%N) ->
  read (TSeq Multi1d (TNum k)) x p = Raise /\ read (TSeq Vector (TNum k)) x p = Raise /\
  read (TSeq StdList (TNum k)) x p = Ret (VSeq (map VNum zs)).
Proof.
  intros E H Hsp Hd ET Hg.
  destruct (after_spelled k s zs sp g false H Hsp Hd) as [A B].
  { intros w Hw. destruct Hg as [(bad & c & r & -> & Hb & Hc)|(c & r & -> & Hs & Hc & H1 & H2)].
    - apply (no_number_extract k bad w (c :: r) Hb Hw). intros c' r' [= <- <-]. exact Hc.
    - now apply extract_junk. }
  cbn [read]; rewrite E; cbn [obind]; rewrite ET; unfold read_words, read_list_words; rewrite A; cbn [negb obind fst]. auto.
Qed.

(** A negative number is taken for an unsigned one: 2^b - m for -m. *)
Theorem C86_unsigned_refuted b ds x p n : dec_digits ds -> (0 < dec_value ds)%N -> (Z.of_N (dec_value ds) < 2 ^ Z.of_nat b)%Z ->
  node_at x p = Ret n -> xtext n = 45%N :: ds -> read (TNum (Unsigned b)) x p = Ret (VNum (2 ^ Z.of_nat b - Z.of_N (dec_value ds))).
Proof.
  intros D P R E ET. cbn [read]. rewrite E. cbn [obind]. rewrite ET. cbn [get_num].
  pose proof (extract_numeral (Unsigned b) [] (45%N :: ds) true (dec_value ds) [] (Forall_nil _) (num_minus ds D) stops_nil) as X.
  rewrite app_nil_r in X. cbn [app] in X. rewrite X. cbn [fits]. destruct (Z.ltb_spec (Z.of_N (dec_value ds)) (2 ^ Z.of_nat b)); [|lia].
  cbn [at_end skip_ws obind]. do 2 f_equal. rewrite Z.mod_opp_l_nz; [|lia|].
  - now rewrite Z.mod_small by lia.
  - rewrite Z.mod_small by lia. lia.
Qed.

(** Numbers need not be separated if the second has a sign. *)
Theorem C86_glued_refuted c k x p n t1 neg1 m1 z1 t2 neg2 m2 z2 : node_at x p = Ret n ->
  numeral t1 neg1 m1 -> means k neg1 m1 z1 -> numeral t2 neg2 m2 -> means k neg2 m2 z2 ->
  (exists ds, t2 = 45%N :: ds \/ t2 = 43%N :: ds) -> xtext n = t1 ++ t2 ->
  read (TSeq c (TNum k)) x p = Ret (VSeq [VNum z1; VNum z2]).
Proof.
  intros E N1 M1 N2 M2 Hs ET.
  assert (St : stops t2). { destruct Hs as [ds [-> | ->]]; intros c' r' [= <- <-]; lia. }
  pose proof (extract_numeral k [] t1 neg1 m1 t2 (Forall_nil _) N1 St) as X1. cbn [app] in X1. apply means_fits in M1. rewrite M1 in X1.
  pose proof (extract_numeral k [] t2 neg2 m2 [] (Forall_nil _) N2 stops_nil) as X2. cbn [app] in X2. rewrite app_nil_r in X2. apply means_fits in M2. rewrite M2 in X2.
  assert (L1 : length t2 < length (t1 ++ t2)).
  { rewrite app_length. destruct (numeral_head t1 neg1 m1 [] N1) as (a & b & EE & _). rewrite app_nil_r in EE. rewrite EE. cbn [length]. lia. }
  assert (L2 : length (@nil N) < length t2) by (destruct Hs as [ds [-> | ->]]; cbn [length]; lia).
  assert (A : scan_all (fuel_of (t1 ++ t2)) k (t1 ++ t2) = ([z1; z2], true)).
  { rewrite (scan_all_got k _ z1 t2 X1 L1), (scan_all_got k _ z2 [] X2 L2). reflexivity. }
  assert (B : scan_n 2 k (t1 ++ t2) = Ret [z1; z2]) by (cbn [scan_n]; rewrite X1; cbn [obind]; rewrite X2; reflexivity).
  destruct c; cbn [read]; rewrite E; cbn [obind]; rewrite ET; unfold read_words, read_list_words; rewrite A; cbn [negb obind fst length]; rewrite ?B; reflexivity.
Qed.

(** Reading into maps that hold something.  A std::map keeps its entries and takes only new keys; a MapObjectMemory keeps the entries the
    document does not have. *)
Lemma map_doc_read tk tv m root s ins old : legal root = true -> legal s = true -> key_ty tk -> readable tv -> has (TMap tk tv) (VMap m) ->
  exists w d, write_doc root [(s, TMap tk tv, VMap m)] = Ret w /\ open_reader w = Ret d /\
  obind (node_at d (down root ++ down s)) (fun top => read_entries (read tk) (read tv) ins top old) = Ret (fold_left (fun m e => ins (fst e) (snd e) m) m old).
Proof.
  intros HR HS HK HV H. destruct (write_doc_ok root [(s, TMap tk tv, VMap m)] HR) as [W O].
  { constructor; [|constructor]. now split. }
  eexists. eexists. split; [exact W|]. split; [exact O|].
  rewrite (node_one _ _ (enc (TMap tk tv) s (VMap m))).
  2:{ rewrite (select_one _ _ _ _ (select_root root _)), select_down. cbn [xkids map enc3 filter]. rewrite enc_name. now rewrite String.eqb_refl. }
  cbn [obind enc]. destruct H as [HF _]. rewrite Forall_forall in HF. assert (RK : readable tk) by (destruct tk; try contradiction; exact I).
  apply read_entries_ok.
  - intros e x p He Hs. destruct (HF e He) as [H1 _]. now apply (read_enc tk "Key").
  - intros e x p He Hs. destruct (HF e He) as [_ H1]. now apply (read_enc tv "Val").
Qed.
Theorem C86_map_merge tk tv m root s old : legal root = true -> legal s = true -> key_ty tk -> readable tv -> has (TMap tk tv) (VMap m) ->
  keys_are tk old -> ordered old ->
  exists w d r, write_doc root [(s, TMap tk tv, VMap m)] = Ret w /\ open_reader w = Ret d /\
  read_into_map tk tv d (down root ++ down s) old = Ret r /\ ordered r /\
  forall k, has tk k -> find_key k r = match find_key k old with Some v => Some v | None => find_key k m end.
Proof.
  intros HR HS HK HV H KO OO. destruct (map_doc_read tk tv m root s map_insert old HR HS HK HV H) as (w & d & W & D & R).
  exists w, d. eexists. split; [exact W|]. split; [exact D|]. split; [exact R|].
  destruct (fold_insert tk m) with (m := old) as (A & B & C).
  - destruct H as [HF _]. eapply Forall_impl; [|exact HF]. intros e [H1 _]. now split.
  - eapply Forall_impl; [|exact KO]. intros e H1. now split.
  - exact OO.
  - split; [exact B|]. intros k Hk. apply C. now split.
Qed.
Theorem C86_map_object_merge tk tv m root s old : legal root = true -> legal s = true -> key_ty tk -> readable tv -> has (TMap tk tv) (VMap m) ->
  keys_are tk old ->
  exists w d r, write_doc root [(s, TMap tk tv, VMap m)] = Ret w /\ open_reader w = Ret d /\
  read_into_obj tk tv d (down root ++ down s) old = Ret r /\
  forall k, has tk k -> find_key k r = match find_key k m with Some v => Some v | None => find_key k old end.
Proof.
  intros HR HS HK HV H KO. destruct (map_doc_read tk tv m root s obj_insert old HR HS HK HV H) as (w & d & W & D & R).
  exists w, d. eexists. split; [exact W|]. split; [exact D|]. split; [exact R|].
  destruct H as [HF HO]. assert (KM : keyed tk m) by (eapply Forall_impl; [|exact HF]; intros e [H1 _]; now split).
  destruct (fold_obj tk m KM) with (m := old) as (A & C).
  - clear - HO KM. induction m as [|e m IH]; [constructor|]. cbn [map] in *. inversion HO as [|? ? O1 O2]; subst. inversion KM as [|? ? K1 K2]; subst.
    constructor; [|now apply IH]. intros I. rewrite Forall_forall in O2. specialize (O2 _ I).
    assert (kcompare (fst e) (fst e) = Eq) by now apply (kcompare_eq tk). congruence.
  - eapply Forall_impl; [|exact KO]. intros e H1. now split.
  - intros k Hk. apply C. now split.
Qed.

(** A seed with fewer than four numbers: read past the end of the array. *)
Theorem C86_seed_short_refuted x p n : node_at x (p ++ down "Seed") = Ret n -> count n (down elem_tag) < 4 ->
  (forall i, i < count n (down elem_tag) -> exists y z, node_at n (nth_path i) = Ret y /\ get_num (Signed 32) (xtext y) = Ret z) ->
  read TSeed x p = Wild.
Proof.
  intros E C H. cbn [read]. rewrite E. cbn [obind]. unfold read_elems. revert C H. generalize (count n (down elem_tag)) as q. intros q C H.
  set (f := fun i => obind (node_at n (nth_path i)) (fun n => obind (get_num (Signed 32) (xtext n)) (fun z => Ret (VNum z)))).
  assert (F : forall i, i < q -> exists z, f i = Ret (VNum z)).
  { intros i Hi. destruct (H i Hi) as (y & z & H1 & H2). exists z. unfold f. rewrite H1. cbn [obind]. now rewrite H2. }
  assert (G : forall b m, b + m <= q -> exists l, omap f (seq b m) = Ret l /\ length l = m).
  { intros b m. revert b. induction m as [|m IH]; intros b Hb; [exists []; auto|]. cbn [seq omap]. destruct (F b ltac:(lia)) as [z ->]. cbn [obind].
    destruct (IH (S b) ltac:(lia)) as (l & -> & Hl). cbn [obind]. exists (VNum z :: l). cbn [length]. auto. }
  destruct (G 0 q ltac:(lia)) as (l & -> & Hl). cbn [obind]. destruct l as [|v0 [|v1 [|v2 [|v3 l]]]]; cbn [length] in Hl; try lia; reflexivity.
Qed.

(** ** The hypotheses can be met *)
Definition doc86 : list (string * ty * value) :=
  [("seed"%string, TSeed, VSeq [VNum 11; VNum 0; VNum (-4); VNum 4095]);
   ("m"%string, TMap TStr (TSeq Multi1d (TPair TChar (TSeq Vector (TNum (Unsigned 32))))),
     VMap [(VStr (txt "alpha"), VSeq [VPair (VStr [60%N]) (VSeq [VNum 7; VNum 4294967295])]); (VStr (txt "beta"), VSeq [])]);
   ("flags"%string, TSeq StdList (TNum KBool), VSeq [VNum 1; VNum 0])].
Example C86_example :
  Forall (fun e => let '(s, t, v) := e in legal s = true /\ readable t /\ has t v) doc86 /\ NoDup (map name_of doc86) /\
  exists w d, write_doc "r" doc86 = Ret w /\ open_reader w = Ret d /\
    map (fun e => let '(s, t, _) := e in read t d (down "r" ++ down s)) doc86 = map (fun e => Ret (snd e)) doc86.
Proof.
  split; [|split].
  - unfold doc86. repeat (constructor; [split; [reflexivity|split; [cbn; tauto|]]|]); [..|constructor].
    + split; [reflexivity|]. repeat (constructor; [eexists; split; [reflexivity|cbn; lia]|]). constructor.
    + split; [|repeat constructor]. repeat constructor; cbn; lia.
    + repeat constructor; cbn; lia.
  - unfold doc86. cbn [map name_of fst]. repeat (constructor; [cbn; intuition discriminate|]). constructor.
  - eexists. eexists. split; [vm_compute; reflexivity|]. split; [vm_compute; reflexivity|]. vm_compute. reflexivity.
Qed.
Definition leafdoc (s : string) : xml := Elem "" [] [Elem "a" (txt s) []].
(** Numbers and a lone sign; a number that does not fit; a list that ends early; a negative unsigned number; glued numbers *)
Example C86_texts :
  read (TSeq Multi1d (TNum (Signed 32))) (leafdoc "1 2 -") (down "a") = Ret (VSeq [VNum 1; VNum 2]) /\
  read (TSeq Vector (TNum (Signed 32))) (leafdoc "1 99999999999") (down "a") = Ret (VSeq [VNum 1]) /\
  read (TSeq Vector (TNum (Signed 32))) (leafdoc "99999999999 1") (down "a") = Raise /\
  read (TSeq StdList (TNum (Signed 32))) (leafdoc "1 2 x 3") (down "a") = Ret (VSeq [VNum 1; VNum 2]) /\
  read (TSeq Multi1d (TNum KBool)) (leafdoc "1 0 2") (down "a") = Ret (VSeq [VNum 1; VNum 0]) /\
  read (TNum (Unsigned 16)) (leafdoc "-1") (down "a") = Ret (VNum 65535) /\
  read (TSeq Multi1d (TNum (Signed 32))) (leafdoc "1-2") (down "a") = Ret (VSeq [VNum 1; VNum (-2)]) /\
  no_number (Signed 32) [45%N] /\ no_number KBool (txt "2") /\ spelled KBool (txt "1 0") [1%Z; 0%Z].
Proof.
  do 7 (split; [vm_compute; reflexivity|]). split; [left; reflexivity|]. split.
  - right. right. exists false, 2%N. split; [apply (num_plain (txt "2")); split; [discriminate|repeat constructor; cbn; lia]|].
    intros z [-> [H|H]]; cbn in H; lia.
  - apply (sp_more KBool [] (txt "1") false 1%N 1%Z 32%N (txt "0") [0%Z]); [constructor| |split; [reflexivity|now right]|reflexivity|].
    + apply (num_plain (txt "1")). split; [discriminate|repeat constructor; cbn; lia].
    + apply (sp_last KBool [] (txt "0") false 0%N 0%Z); [constructor| |split; [reflexivity|now left]].
      apply (num_plain (txt "0")). split; [discriminate|repeat constructor; cbn; lia].
Qed.
(** An entry of the map at hand stays, the one in the document is lost. *)
Example C86_merge_example :
  exists w d, write_doc "r" [("m"%string, TMap (TNum (Signed 32)) TStr, VMap [(VNum 1, VStr (txt "new")); (VNum 3, VStr (txt "c"))])] = Ret w /\ open_reader w = Ret d /\
  read_into_map (TNum (Signed 32)) TStr d (down "r" ++ down "m") [(VNum 1, VStr (txt "old")); (VNum 2, VStr (txt "b"))]
  = Ret [(VNum 1, VStr (txt "old")); (VNum 2, VStr (txt "b")); (VNum 3, VStr (txt "c"))] /\
  read_into_obj (TNum (Signed 32)) TStr d (down "r" ++ down "m") [(VNum 1, VStr (txt "old")); (VNum 2, VStr (txt "b"))]
  = Ret [(VNum 1, VStr (txt "new")); (VNum 2, VStr (txt "b")); (VNum 3, VStr (txt "c"))].
Proof. eexists. eexists. split; [vm_compute; reflexivity|]. split; [vm_compute; reflexivity|]. split; vm_compute; reflexivity. Qed.
Example C86_short_seed : read TSeed (Elem "" [] [Elem "s" [] [Elem "Seed" [] [Elem "elem" (txt "5") []; Elem "elem" (txt "6") []]]]) (down "s") = Wild.
Proof. vm_compute. reflexivity. Qed.

Print Assumptions C86_round_trip.
Print Assumptions C86_twice.
Print Assumptions C86_format.
Print Assumptions C86_number.
Print Assumptions C86_missing.
Print Assumptions C86_absent.
Print Assumptions C86_char.
Print Assumptions C86_list_refuted.
Print Assumptions C86_words.
Print Assumptions C86_tail_dropped_refuted.
Print Assumptions C86_bad_refused.
Print Assumptions C86_unsigned_refuted.
Print Assumptions C86_glued_refuted.
Print Assumptions C86_map_merge.
Print Assumptions C86_map_object_merge.
Print Assumptions C86_seed_short_refuted.

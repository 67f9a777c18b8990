(** What one expects of XML input and output, without reference to how it is done. *)
From Coq Require Import String List Arith NArith ZArith Bool Sorted Ascii.
From Verif Require Import Base NerscHeader XmlModel.
Import ListNotations.
Local Open Scope nat_scope.
Local Notation length := List.length.

(** The values of a number type *)
Definition in_kind (k : kind) (z : Z) : Prop :=
  match k with
  | Signed b => (- 2 ^ (Z.of_nat b - 1) <= z < 2 ^ (Z.of_nat b - 1))%Z
  | Unsigned b => (0 <= z < 2 ^ Z.of_nat b)%Z
  | KBool => z = 0%Z \/ z = 1%Z
  end.

(** The values of a type.  Strings hold characters that XML can carry; the keys of a map increase. *)
Fixpoint has (t : ty) (v : value) : Prop :=
  match t, v with
  | TStr, VStr s => Forall (fun c => plain c = true) s
  | TChar, VStr [c] => plain c = true
  | TNum k, VNum z => in_kind k z
  | TSeq _ t', VSeq l => Forall (has t') l
  | TMap tk tv, VMap l => Forall (fun e => has tk (fst e) /\ has tv (snd e)) l /\
                          StronglySorted (fun a b => kcompare a b = Lt) (map fst l)
  | TPair ta tb, VPair a b => has ta a /\ has tb b
  | TComplex t', VPair a b => has t' a /\ has t' b
  | TSeed, VSeq l => length l = 4 /\ Forall (fun v => exists z, v = VNum z /\ in_kind (Signed 32) z) l
  | _, _ => False
  end.

(** Keys of maps: numbers and strings *)
Definition key_ty (t : ty) : Prop := match t with TStr | TNum _ => True | _ => False end.
(** Types for which reading is possible and does what one expects: no std::list except of numbers (bools included); there is no function
    that reads a std::vector<bool>. *)
Fixpoint readable (t : ty) : Prop :=
  match t with
  | TStr | TChar | TNum _ | TSeed => True
  | TSeq StdList t' => is_word t' = true
  | TSeq Vector (TNum KBool) => False
  | TSeq _ t' => readable t'
  | TMap k v => key_ty k /\ readable v
  | TPair a b => readable a /\ readable b
  | TComplex t' => readable t'
  end.

(** Numerals: an optional sign and decimal digits *)
Definition dec_digits (s : list N) : Prop := s <> [] /\ Forall (fun c => (48 <= c <= 57)%N) s.
Definition dec_value (s : list N) : N := fold_left (fun a c => (10 * a + (c - 48))%N) s 0%N.
Inductive numeral : list N -> bool -> N -> Prop :=
| num_plain s : dec_digits s -> numeral s false (dec_value s)
| num_plus s : dec_digits s -> numeral (43%N :: s) false (dec_value s)
| num_minus s : dec_digits s -> numeral (45%N :: s) true (dec_value s).
Definition signed_value (neg : bool) (m : N) : Z := (if neg then - Z.of_N m else Z.of_N m)%Z.
(** The value of a numeral as a number of the type: itself, or modulo 2^b if the type is unsigned *)
Definition means (k : kind) (neg : bool) (m : N) (z : Z) : Prop :=
  match k with
  | Unsigned b => (Z.of_N m < 2 ^ Z.of_nat b)%Z /\ z = (signed_value neg m mod 2 ^ Z.of_nat b)%Z
  | _ => z = signed_value neg m /\ in_kind k z
  end.

Definition spaces (s : list N) : Prop := Forall (fun c => is_space c = true) s.
(** [spelled k s zs]: the text [s] consists of numerals for the numbers [zs], with white space between them and possibly
    at both ends. *)
Inductive spelled (k : kind) : list N -> list Z -> Prop :=
| sp_end ws : spaces ws -> spelled k ws []
| sp_more ws tok neg m z c rest zs : spaces ws -> numeral tok neg m -> means k neg m z -> is_space c = true ->
    spelled k rest zs -> spelled k (ws ++ tok ++ c :: rest) (z :: zs)
| sp_last ws tok neg m z : spaces ws -> numeral tok neg m -> means k neg m z -> spelled k (ws ++ tok) [z].

(** A text that is a number of the type and nothing else *)
Definition one_number (k : kind) (s : list N) (z : Z) : Prop :=
  exists a tok b, s = a ++ tok ++ b /\ spaces a /\ spaces b /\
  match k with
  | KBool => (tok = txt "true" /\ z = 1%Z) \/ (tok = txt "false" /\ z = 0%Z)
  | _ => exists neg m, numeral tok neg m /\ means k neg m z
  end.

(** A lone sign, or a numeral whose value the type does not have *)
Definition no_number (k : kind) (s : list N) : Prop :=
  s = [45%N] \/ s = [43%N] \/ exists neg m, numeral s neg m /\ forall z, ~ means k neg m z.

(** The value stored for a key *)
Fixpoint find_key (k : value) (m : list (value * value)) : option value :=
  match m with [] => None | (k', v) :: r => if same_key k k' then Some v else find_key k r end.
Definition keys_are (t : ty) (m : list (value * value)) : Prop := Forall (fun e => has t (fst e)) m.
(** The keys increase: what a std::map keeps true *)
Definition ordered (m : list (value * value)) : Prop := StronglySorted (fun a b => kcompare a b = Lt) (map fst m).

(** The format: the element that stands for a value *)
Definition num_of (v : value) : Z := match v with VNum z => z | _ => 0%Z end.
Definition leaf (s : string) (b : list N) : xml := Elem s b [].
Fixpoint separated (l : list (list N)) : list N :=
  match l with [] => [] | [a] => a | a :: r => a ++ 32%N :: separated r end.
Fixpoint enc (t : ty) (s : string) (v : value) : xml :=
  match t, v with
  | TStr, VStr b => leaf s b
  | TChar, VStr b => leaf s b
  | TNum KBool, VNum z => leaf s (if (z =? 0)%Z then txt "false" else txt "true")
  | TNum _, VNum z => leaf s (show_int z)
  | TSeq _ (TNum _), VSeq l => leaf s (separated (map (fun v => show_int (num_of v)) l))
  | TSeq _ t', VSeq l => Elem s [] (map (enc t' "elem") l)
  | TMap tk tv, VMap l => Elem s [] (map (fun e => Elem "elem" [] [enc tk "Key" (fst e); enc tv "Val" (snd e)]) l)
  | TPair ta tb, VPair a b => Elem s [] [enc ta "First" a; enc tb "Second" b]
  | TComplex t', VPair a b => Elem s [] [enc t' "re" a; enc t' "im" b]
  | TSeed, VSeq l => Elem s [] [Elem "Seed" [] (map (fun v => leaf "elem" (show_int (num_of v))) l)]
  | _, _ => leaf s []
  end.

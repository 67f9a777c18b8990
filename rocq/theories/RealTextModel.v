(** Floating-point numbers as text: arrays, vectors and lists of float, double, Real32 and Real64 in XML
    (lib/qdp_xmlio.cc 919-1006 and 1052-1139 and 1188-1281, read back by 311-355, 425-461, 525-542), numbers on QDPIO::cout
    (lib/qdp_stdio.cc 233-256) and in text files (lib/qdp_io.cc 406-426). Each place sets (or leaves) the precision of the
    stream, and the C++ library does the rest.

    Numbers are whole multiples of 10^-1074: every float and double is one, because 2^-1074 = 5^1074 * 10^-1074, and so is
    every decimal number of up to 750 digits behind the point that is written for them. A number is thus an integer.
    The C++ library is taken to convert exactly: operator<< writes the decimal number with p digits that is nearest to the
    value, operator>> takes the nearest float or double of the decimal number, both with ties to even (as in glibc).
    Simplified: the text of a number is the decimal number it stands for (the layout of %g, fixed or scientific, with zeros
    at the end taken away, does not matter to what is read); the sign of zero is dropped. *)
From Coq Require Import List Bool ZArith.
From Verif Require Import XmlModel.
Import ListNotations.
Local Open Scope Z_scope.

(** The nearest multiple of g, in units of g; the even one of two *)
Definition half_even (n g : Z) : Z :=
  let q := n / g in let r := n mod g in
  if 2 * r <? g then q else if g <? 2 * r then q + 1 else if Z.even q then q else q + 1.
(** The finest step g, r*g, r^2*g, ... in which n has no more than p digits; [h] is g*r^p *)
Fixpoint step_of (fuel : nat) (r n g h : Z) : Z :=
  match fuel with
  | O => g
  | S f => if n <? h then g else step_of f r n (g * r) (h * r)
  end.
(** n >= 0 rounded to p digits in base r, the last digit not below g0 *)
Definition to_digits (r p g0 n : Z) : Z :=
  let g := step_of (S (Z.to_nat (Z.log2 n))) r n g0 (g0 * r ^ p) in half_even n g * g.

(** float and double: 24 and 53 binary digits, the last one at least 2^-149 and 2^-1074; below 2^128 and 2^1024 *)
Record format := mkFormat { bits : Z; least : Z; limit : Z }.
Definition double_format : format := mkFormat 53 (-1074) 1024.
Definition float_format : format := mkFormat 24 (-149) 128.
(** 2^e in units of 10^-1074, for e >= -1074 *)
Definition two_to (e : Z) : Z := 2 ^ (e + 1074) * 5 ^ 1074.

Inductive num := Fin (n : Z) | Infinite | NotANumber.
Inductive word := Decimal (v : Z) | Name.        (** a decimal number; "inf", "-inf", "nan" *)
(** operator<< with precision p *)
Definition put (p : Z) (x : num) : word :=
  match x with Fin n => Decimal (Z.sgn n * to_digits 10 p 1 (Z.abs n)) | _ => Name end.
(** The nearest float or double *)
Definition nearest (f : format) (v : Z) : Z := Z.sgn v * to_digits 2 (bits f) (two_to (least f)) (Z.abs v).
(** operator>>: fails if the number is too large, and for the names of C *)
Definition get (f : format) (w : word) : option Z :=
  match w with
  | Decimal v => if Z.abs (nearest f v) <? two_to (limit f) then Some (nearest f v) else None
  | Name => None
  end.

(** while (list_stream >> dummy): the numbers, and eof() afterwards. A number too large is taken from the stream before
    it is refused, so that the end of the text is seen if it is the last word; a name is not. *)
Fixpoint get_all (f : format) (l : list word) : list Z * bool :=
  match l with
  | [] => ([], true)
  | w :: r =>
      match get f w with
      | Some n => let '(ns, e) := get_all f r in (n :: ns, e)
      | None => ([], match w, r with Decimal _, [] => true | _, _ => false end)
      end
  end.
(** readArrayPrimitive and readVectorPrimitive: throw if the loop ended before the end of the text (lib/qdp_xmlio.cc 328-332,
    442-446), then read as many numbers again *)
Definition read_array (f : format) (l : list word) : out (list Z) :=
  let '(ns, e) := get_all f l in if e then Ret ns else Raise.
(** readListPrimitive: 525-542 *)
Definition read_list (f : format) (l : list word) : out (list Z) := Ret (fst (get_all f l)).
(** The precision: arrays, vectors and lists in XML, and QDPIO::cout *)
Definition xml_digits (f : format) : Z := if bits f =? 24 then 7 else 15.
(** TextWriter: that of a new stream *)
Definition file_digits (f : format) : Z := 6.
(** write of an array, vector or list *)
Definition write_array (f : format) (l : list num) : list word := map (put (xml_digits f)) l.

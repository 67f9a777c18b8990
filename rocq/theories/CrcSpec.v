(** Specification of the checksum: CRC-32 by division of polynomials over GF(2). *)
From Coq Require Import List Arith NArith Bool.
Import ListNotations.
Local Open Scope N_scope.

(** A polynomial over GF(2) is a number: bit i is the coefficient of x^i.  Addition is
    N.lxor. *)
Fixpoint pmul_pos (q : positive) (g : N) : N :=
  match q with
  | xH => g
  | xO q' => N.double (pmul_pos q' g)
  | xI q' => N.lxor g (N.double (pmul_pos q' g))
  end.
Definition pmul (q g : N) : N := match q with N0 => 0 | Npos p => pmul_pos p g end.

(** x^32+x^26+x^23+x^22+x^16+x^12+x^11+x^10+x^8+x^7+x^5+x^4+x^2+x+1 *)
Definition generator : N :=
  fold_left (fun g e => g + 2 ^ e) [32;26;23;22;16;12;11;10;8;7;5;4;2;1;0] 0.

(** The bits of a byte string, lowest bit of each byte first. *)
Definition byte_bits (b : N) : list bool := map (fun i => N.testbit b (N.of_nat i)) (seq 0 8).
Definition bits (bytes : list N) : list bool := flat_map byte_bits bytes.

(** The first bit is the coefficient of the highest power. *)
Definition poly_of (bs : list bool) : N := fold_left (fun p b => 2 * p + N.b2n b) bs 0.

(** The 32 bits of a word in reverse order. *)
Definition reflect32 (w : N) : N := poly_of (map (fun i => N.testbit w (N.of_nat i)) (seq 0 32)).

Definition ones32 : N := 2 ^ 32 - 1.

(** [c'] is the checksum of [bytes], continuing from checksum [c] (0 at the start): the
    complemented, reflected remainder of (message * x^32 + start * x^length). *)
Definition is_crc32 (c : N) (bytes : list N) (c' : N) : Prop :=
  exists q r, r < 2 ^ 32 /\
    N.lxor (poly_of (bits bytes) * 2 ^ 32)
           (reflect32 (N.lxor c ones32) * 2 ^ (8 * N.of_nat (length bytes)))
      = N.lxor (pmul q generator) r /\
    c' = N.lxor (reflect32 r) ones32.

Definition bytes_ok (bs : list N) : Prop := Forall (fun b => b < 256) bs.

(** Exactly the positions in [ps] differ. *)
Definition differ_at (ps : list nat) (xs ys : list bool) : Prop :=
  length xs = length ys /\
  forall i, (i < length xs)%nat -> (nth i xs false <> nth i ys false <-> In i ps).

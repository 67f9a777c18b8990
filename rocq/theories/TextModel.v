(** Model of text input and output: TextReader, TextWriter and their buffer and file forms (include/qdp_io.h 40-330,
    lib/qdp_io.cc 15-517), standard input and output on several nodes (lib/qdp_stdio.cc), the text forms of scalars
    (include/qdp_reality.h 204-219, 410-425; qdp_primvector.h 179-199, qdp_primspinvec.h 147-170, qdp_primmatrix.h 166-190,
    qdp_primseed.h 147-168, qdp_outer.h 165-190), and what a file object does when it is opened, used and closed
    (lib/qdp_io.cc 228-262, 474-517, 964-1008, 1393-1445, 1587-1645; lib/qdp_xmlio.cc 1318-1392).

    Whole numbers, bools, characters and strings; floating-point numbers as text are in RealTextModel.  operator>> and
    operator<< of streams, stringstream and fstream are those of the C++ standard (base 10, no boolalpha, skipws). *)
From Coq Require Import List Arith NArith ZArith Bool.
From Verif Require Import Base NerscHeader XmlModel.
Import ListNotations.
Local Open Scope nat_scope.

(** ** Reading *)
Inductive tkind := TInt (k : kind) | TCh | TWord.
Inductive tval := I (z : Z) | C (c : N) | W (s : list N).
(** A stream to read from: the characters left, eofbit, failbit. *)
Record ist := mkIst { rest : list N; eofb : bool; failb : bool }.
Definition opened (s : list N) : ist := mkIst s false false.

(** What num_get leaves in the variable when the number does not fit. *)
Definition limit (k : kind) (neg : bool) : Z :=
  match k with
  | Signed b => if neg then - 2 ^ (Z.of_nat b - 1) else 2 ^ (Z.of_nat b - 1) - 1
  | Unsigned b => 2 ^ Z.of_nat b - 1
  | KBool => 1
  end%Z.
(** stream >> x, with [old] the value of x before.  Nothing is stored when the stream is not good or holds only white
    space; 0 when there is no number, the limit of the type when it does not fit. *)
Definition get (t : tkind) (old : tval) (st : ist) : tval * ist :=
  if eofb st || failb st then (old, mkIst (rest st) (eofb st) true) else
  match skip_ws (rest st) with
  | [] => (old, mkIst [] true true)
  | c :: s =>
      match t with
      | TCh => (C c, mkIst s false false)
      | TWord => let w := word_of (c :: s) in let r := skipn (length w) (c :: s) in (W w, mkIst r (at_end r) false)
      | TInt k =>
          let '(neg, s2) := sign (c :: s) in
          match digits 10 0 0 s2 with
          | (O, _, r) => (I 0, mkIst r (at_end r) true)
          | (_, m, r) => match fits k neg m with
                         | Some z => (I z, mkIst r (at_end r) false)
                         | None => (I (limit k neg), mkIst r (at_end r) true)
                         end
          end
      end
  end.
(** Characters up to the first NUL: input = dd_tmp, lib/qdp_io.cc 57. *)
Fixpoint to_nul (s : list N) : list N :=
  match s with c :: r => if (c =? 0)%N then [] else c :: to_nul r | [] => [] end.
(** The two kinds of reader: TextReader::read (lib/qdp_io.cc 30-62, 109-117) and StandardInputStream::operator>>
    (lib/qdp_stdio.cc 52-64, 115-126). *)
Inductive reader := Text | Standard.
Definition as_sent (r : reader) (v : tval) : tval :=
  match r, v with Text, W s => W (to_nul s) | _, _ => v end.
(** The variables of all nodes: node, variable.  Node 0 is the primary one; it reads and every node gets the result by
    broadcast (for a word read by a TextReader the primary too takes what was sent). *)
Definition env := nat -> nat -> tval.
Definition read_var (r : reader) (t : tkind) (x : nat) (e : env) (st : ist) : env * ist :=
  let '(v, st') := get t (e 0 x) st in
  ((fun n y => if y =? x then as_sent r v else e n y), st').
Fixpoint read_prog (r : reader) (p : list (tkind * nat)) (e : env) (st : ist) : env * ist :=
  match p with
  | [] => (e, st)
  | (t, x) :: p => let '(e', st') := read_var r t x e st in read_prog r p e' st'
  end.
(** fail(): lib/qdp_io.cc 19-28, lib/qdp_stdio.cc 36-45. *)
Definition fail (st : ist) : bool := failb st.
(** TextBufferReader::open, lib/qdp_io.cc 187-191: str(s), which leaves the state of the stream as it is. *)
Definition buffer_open (s : list N) (st : ist) : ist := mkIst s (eofb st) (failb st).

(** ** Writing *)

(** TextWriter::write, lib/qdp_io.cc 348-426; StandardOutputStream::operator<<, lib/qdp_stdio.cc 172-228, 276-296. *)
Definition show (v : tval) : list N := match v with I z => show_int z | C c => [c] | W s => s end.
(** TextWriter& operator<< of RComplex (include/qdp_reality.h 420-424), PVector, PSpinVector and PMatrix: the parts one after the other. *)
Definition show_parts (l : list Z) : list N := concat (map show_int l).
(** ... and of PSeed (include/qdp_primseed.h 158-167): each with a line end. *)
Definition show_seed (l : list Z) : list N := concat (map (fun z => show_int z ++ [10%N]) l).
(** TextReader& operator>> of the same types: the parts in the same order, include/qdp_reality.h 412-416,
    qdp_primvector.h 181-188, qdp_primmatrix.h 168-176, qdp_primseed.h 149-156. *)
Fixpoint get_parts (k : kind) (olds : list Z) (st : ist) : list Z * ist :=
  match olds with
  | [] => ([], st)
  | o :: olds => let '(v, st1) := get (TInt k) (I o) st in
                 let '(l, st2) := get_parts k olds st1 in
                 ((match v with I z => z | _ => o end) :: l, st2)
  end.
(** TextBufferWriter, lib/qdp_io.cc 431-462: an ostringstream; str(s) puts the position at the start. *)
Record obuf := mkObuf { obytes : list N; opos : nat }.
Definition new_buffer : obuf := mkObuf [] 0.
Definition buffer_from (s : list N) : obuf := mkObuf s 0.
Definition buffer_put (s : list N) (b : obuf) : obuf :=
  mkObuf (firstn (opos b) (obytes b) ++ s ++ skipn (opos b + length s) (obytes b)) (opos b + length s).

(** ** File objects that write: TextFileWriter, BinaryFileWriter, XMLFileWriter *)
Inductive fclass := TextOrBinary | Xml.
(** The files on disk by name (numbers here), the file the object has open, failbit. *)
Record fobj := mkF { disk : nat -> option (list N); cur : option nat; ffail : bool }.
Inductive fcmd := FOpen (name : nat) | FWrite (s : list N) | FClose.
(** open: lib/qdp_io.cc 474-481, 1399-1407; lib/qdp_xmlio.cc 1321-1336, which looks at fail() instead of is_open().
    ofstream::open fails if a file is open, and clears the state of the stream if not.  All names can be opened here.
    close: 483-490, 1409-1418; 1339-1346.  Writing to a failed stream, or with no file open, does nothing (and sets
    failbit). *)
Definition fexec (k : fclass) (c : fcmd) (f : fobj) : out fobj :=
  match c with
  | FOpen name =>
      let f' := match cur f with
                | Some _ => mkF (disk f) (cur f) true
                | None => mkF (fun n => if n =? name then Some [] else disk f n) (Some name) false
                end in
      match k with
      | TextOrBinary => match cur f' with None => Halt | Some _ => Ret f' end
      | Xml => if ffail f' then Halt else Ret f'
      end
  | FWrite s =>
      if ffail f then Ret f else
      match cur f with
      | None => Ret (mkF (disk f) (cur f) true)
      | Some name => Ret (mkF (fun n => if n =? name then option_map (fun t => t ++ s) (disk f n) else disk f n) (cur f) false)
      end
  | FClose => match cur f with None => Ret f | Some _ => Ret (mkF (disk f) None (ffail f)) end
  end.
Definition frun (k : fclass) (l : list fcmd) (f : fobj) : out fobj := ofold (fexec k) l f.

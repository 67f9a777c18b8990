(** XML input on several nodes: XMLReader of lib/qdp_xmlio.cc 96-260 and the functions read of include/qdp_xmlio.h as
    programs that every node runs.  The primary node alone has the document; it makes the queries and broadcasts the answers.

    Every node runs the same program; what a program does next depends on the answers it got.  A query that fails throws on the
    primary node only, before anything is broadcast (lib/qdp_xmlio.cc 126-137, 178-188, 242-251).
    Contract of QMP_broadcast: messages of the primary node are received in order; a receiver that expects another number of bytes
    has undefined behaviour ([Garbled]); a receiver for whom there is no message waits ([Waits]).
    A reader (XMLReader) for a part of the document is represented by the path of this part, from the root of the document; the other nodes make no use of it.
    The functions that catch exceptions throw another one at once (include/qdp_xmlio.h 238-246, 312-320, 384-392, 464-472;
    include/qdp_reality.h 459-476): this is left out. *)
From Coq Require Import String List Arith NArith ZArith Bool Ascii.
From Verif Require Import Base NerscHeader XmlModel.
Import ListNotations.
Local Open Scope nat_scope.
Local Notation length := List.length.

(** ** Programs *)
(** XMLReader::get of numbers and of strings, 127-191; count, 242-251; XMLReader(XMLReader&, xpath), 37-42, 96-105 *)
Inductive query := QNum (k : kind) (p : path) | QStr (p : path) | QCount (p : path) | QOpen (p : path).
Inductive ans := ANum (z : Z) | AStr (s : list N) | ACount (n : nat) | AOpen.
(** [PAsk q k f]: a query, what is done with its answer, and what is done when it throws *)
Inductive prog (A : Type) := PRet (a : A) | PThrow | PWild | PAsk (q : query) (k : ans -> prog A) (f : prog A).
Arguments PRet {A} a.
Arguments PThrow {A}.
Arguments PWild {A}.
Arguments PAsk {A} q k f.
Fixpoint pbind {A B} (p : prog A) (g : A -> prog B) : prog B :=
  match p with
  | PRet a => g a
  | PThrow => PThrow
  | PWild => PWild
  | PAsk q k f => PAsk q (fun a => pbind (k a) g) (pbind f g)
  end.
(** try { p } catch (const std::string&) { h } *)
Fixpoint ptry {A} (p h : prog A) : prog A :=
  match p with
  | PRet a => PRet a
  | PThrow => h
  | PWild => PWild
  | PAsk q k f => PAsk q (fun a => ptry (k a) h) (ptry f h)
  end.
Definition local {A} (r : out A) : prog A :=
  match r with Ret a => PRet a | Raise => PThrow | Halt => PWild | Wild => PWild end.
Fixpoint pmap {A B} (f : A -> prog B) (l : list A) : prog (list B) :=
  match l with
  | [] => PRet []
  | a :: l' => pbind (f a) (fun b => pbind (pmap f l') (fun bs => PRet (b :: bs)))
  end.
Fixpoint pfold {A S} (f : A -> S -> prog S) (l : list A) (s : S) : prog S :=
  match l with [] => PRet s | a :: l' => pbind (f a s) (pfold f l') end.

(** ** Broadcasts *)
(** A number of [w] bytes, lowest first *)
Fixpoint le (w : nat) (z : Z) : list N :=
  match w with O => [] | S w' => Z.to_N (z mod 256)%Z :: le w' (z / 256)%Z end.
Fixpoint of_le (s : list N) : Z := match s with [] => 0%Z | b :: r => (Z.of_N b + 256 * of_le r)%Z end.
Definition width (k : kind) : nat := match k with Signed b | Unsigned b => (b + 7) / 8 | KBool => 1 end.
(** The number that the bytes stand for; a bool has to be 0 or 1 *)
Definition number (k : kind) (s : list N) : option Z :=
  match k with
  | Signed b => let m := (of_le s mod 2 ^ Z.of_nat b)%Z in
                Some (if (m <? 2 ^ (Z.of_nat b - 1))%Z then m else (m - 2 ^ Z.of_nat b)%Z)
  | Unsigned b => Some (of_le s mod 2 ^ Z.of_nat b)%Z
  | KBool => if ((of_le s =? 0) || (of_le s =? 1))%Z then Some (of_le s) else None
  end.
Definition int32 := Signed 32.
(** QDPInternal::broadcast, include/qdp_parscalar_specific.h 220-243; broadcast_str (the length, then the characters),
    lib/qdp_parscalar_specific.cc 253-285 *)
Definition messages (q : query) (a : ans) : list (list N) :=
  match q, a with
  | QNum k _, ANum z => [le (width k) z]
  | QStr _, AStr s => [le (width int32) (Z.of_nat (length s)); s]
  | QCount _, ACount n => [le (width int32) (Z.of_nat n)]
  | _, _ => []
  end.

(** ** The primary node *)
Definition answer (x : xml) (q : query) : option ans :=
  match q with
  | QNum k p => match node_at x p with
                | Ret n => match get_num k (xtext n) with Ret z => Some (ANum z) | _ => None end
                | _ => None
                end
  | QStr p => match node_at x p with Ret n => Some (AStr (xtext n)) | _ => None end
  | QCount p => Some (ACount (count x p))
  | QOpen p => match node_at x p with Ret _ => Some AOpen | _ => None end
  end.
(** The result, the messages sent, and whether some query failed *)
Fixpoint run0 {A} (x : xml) (p : prog A) : out A * list (list N) * bool :=
  match p with
  | PRet a => (Ret a, [], false)
  | PThrow => (Raise, [], false)
  | PWild => (Wild, [], false)
  | PAsk q k f =>
      match answer x q with
      | Some a => let '(r, ms, b) := run0 x (k a) in (r, messages q a ++ ms, b)
      | None => let '(r, ms, _) := run0 x f in (r, ms, true)
      end
  end.

(** ** The other nodes *)
Inductive fate (A : Type) := Ends (r : out A) (rest : list (list N)) | Waits | Garbled.
Arguments Ends {A} r rest.
Arguments Waits {A}.
Arguments Garbled {A}.
Inductive got (A : Type) := Now (a : A) (rest : list (list N)) | None_yet | Bad.
Arguments Now {A} a rest.
Arguments None_yet {A}.
Arguments Bad {A}.
Definition get_number (k : kind) (ms : list (list N)) : got Z :=
  match ms with
  | [] => None_yet
  | m :: rest => if length m =? width k then match number k m with Some z => Now z rest | None => Bad end else Bad
  end.
(** The answer a node gets; a negative length or count is [Bad] *)
Definition receive (q : query) (ms : list (list N)) : got ans :=
  match q with
  | QNum k _ => match get_number k ms with Now z r => Now (ANum z) r | None_yet => None_yet | Bad => Bad end
  | QCount _ => match get_number int32 ms with
                | Now z r => if (z <? 0)%Z then Bad else Now (ACount (Z.to_nat z)) r
                | None_yet => None_yet | Bad => Bad end
  | QStr _ => match get_number int32 ms with
              | Now z [] => if (z <? 0)%Z then Bad else None_yet
              | Now z (s :: r) => if (Z.of_nat (length s) =? z)%Z then Now (AStr s) r else Bad
              | None_yet => None_yet | Bad => Bad end
  | QOpen _ => Now AOpen ms
  end.
Fixpoint run1 {A} (p : prog A) (ms : list (list N)) : fate A :=
  match p with
  | PRet a => Ends (Ret a) ms
  | PThrow => Ends Raise ms
  | PWild => Ends Wild ms
  | PAsk q k f => match receive q ms with Now a r => run1 (k a) r | None_yet => Waits | Bad => Garbled end
  end.

(** ** read, as a program *)
Definition ask_num (k : kind) (p : path) : prog Z := PAsk (QNum k p) (fun a => match a with ANum z => PRet z | _ => PWild end) PThrow.
Definition ask_str (p : path) : prog (list N) := PAsk (QStr p) (fun a => match a with AStr s => PRet s | _ => PWild end) PThrow.
Definition ask_count (p : path) : prog nat := PAsk (QCount p) (fun a => match a with ACount n => PRet n | _ => PWild end) PThrow.
Definition ask_open (p : path) : prog unit := PAsk (QOpen p) (fun a => match a with AOpen => PRet tt | _ => PWild end) PThrow.
(** include/qdp_xmlio.h 202-247, 274-324 *)
Definition elems_prog (rd : path -> prog value) (p : path) : prog (list value) :=
  pbind (ask_open p) (fun _ => pbind (ask_count (p ++ down elem_tag)) (fun n => pmap (fun i => rd (p ++ nth_path i)) (seq 0 n))).
(** include/qdp_xmlio.h 343-398 *)
Fixpoint list_loop_prog (fuel i : nat) (rd : path -> prog value) (p : path) (input : list value) : prog (list value) :=
  match fuel with
  | O => PRet input
  | S f => if i <? length input
           then pbind (rd (p ++ nth_path i)) (fun v => list_loop_prog f (i + 1) rd p (input ++ [v]))
           else PRet input
  end.
Definition list_prog (rd : path -> prog value) (p : path) : prog (list value) :=
  pbind (ask_open p) (fun _ => pbind (ask_count (p ++ down elem_tag)) (fun n => list_loop_prog (S n) 0 rd p [])).
(** include/qdp_xmlio.h 424-475; include/qdp_map_obj_memory.h 258-308 *)
Definition entries_prog (rk rv : path -> prog value) (ins : value -> value -> list (value * value) -> list (value * value))
    (p : path) (m : list (value * value)) : prog (list (value * value)) :=
  pbind (ask_open p) (fun _ => pbind (ask_count (p ++ down elem_tag)) (fun n =>
  pfold (fun i m => pbind (ask_open (p ++ nth_path i)) (fun _ =>
                    pbind (rk ((p ++ nth_path i) ++ down "Key")) (fun k =>
                    pbind (rv ((p ++ nth_path i) ++ down "Val")) (fun v => PRet (ins k v m))))) (seq 0 n) m)).
(** The functions of [XmlModel.read], with the same citations *)
Fixpoint read_prog (t : ty) (p : path) : prog value :=
  match t with
  | TStr => pbind (ask_str p) (fun s => PRet (VStr s))
  | TChar => pbind (ask_str p) (fun s => PRet (VStr [first_char s]))
  | TNum k => pbind (ask_num k p) (fun z => PRet (VNum z))
  | TSeq c t' =>
      match t', c with
      | TNum k, StdList => pbind (ask_str p) (fun s => pbind (local (read_list_words k s)) (fun l => PRet (nums l)))
      | TNum k, _ => pbind (ask_str p) (fun s => pbind (local (read_words k s)) (fun l => PRet (nums l)))
      | _, StdList => pbind (list_prog (read_prog t') p) (fun l => PRet (VSeq l))
      | _, _ => pbind (elems_prog (read_prog t') p) (fun l => PRet (VSeq l))
      end
  | TMap tk tv => pbind (entries_prog (read_prog tk) (read_prog tv) map_insert p []) (fun m => PRet (VMap m))
  | TPair ta tb =>
      pbind (ask_open p) (fun _ => pbind (read_prog ta (p ++ down "First")) (fun a =>
      pbind (read_prog tb (p ++ down "Second")) (fun b => PRet (VPair a b))))
  | TComplex t' =>
      pbind (read_prog t' (p ++ down "re")) (fun a => pbind (read_prog t' (p ++ down "im")) (fun b => PRet (VPair a b)))
  | TSeed =>
      pbind (elems_prog (fun p => pbind (ask_num (Signed 32) p) (fun z => PRet (VNum z))) (p ++ down "Seed")) (fun ff =>
      pbind (local (omap (fun i => match nth_error ff i with Some v => Ret v | None => Wild end) (seq 0 4))) (fun l => PRet (VSeq l)))
  end.
(** A program that reads a number of things *)
Definition read_all (l : list (ty * path)) : prog (list value) := pmap (fun e => read_prog (fst e) (snd e)) l.
(** The usual way of reading something that may be missing: if (xml.count(p) == 0) ... else read(xml, p, ...) *)
Definition read_optional (t : ty) (p : path) (d : value) : prog value :=
  pbind (ask_count p) (fun n => if n =? 0 then PRet d else read_prog t p).

(** Documents considered: the number of elements and the length of the text fit an int *)
Fixpoint elements (x : xml) : nat := match x with Elem _ _ k => S (list_sum (map elements k)) end.
Definition moderate (x : xml) : Prop := (Z.of_nat (elements x) < 2 ^ 31)%Z /\ (Z.of_nat (length (xtext x)) < 2 ^ 31)%Z.

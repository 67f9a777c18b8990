(** XML input and output of values and containers: lib/qdp_xmlio.cc, include/qdp_xmlio.h, and the XML functions of
    seeds (include/qdp_primseed.h), complex numbers (include/qdp_reality.h) and MapObjectMemory.

    Contracts.  The libraries underneath (XMLSimpleWriter, BasicXPathReader, libxml2) are not part of /repo.  They are
    taken to do the following, and only that is modelled here.
    - The writer keeps a stack of open tags; closeTag without an open tag ends the program.
    - Reading a document written by the writer gives the same tree of elements, provided that the names are XML names and
      the characters are allowed in XML and not changed by it (no control characters but tab and newline).
    - A path is a sequence of steps "name" or "name[i]" (i counted from 1), taken from the node of the reader.  A query for a
      value or for a derived reader throws unless exactly one element matches; count returns the number of matches.
    - get of a number takes the whole text of the element, up to white space at both ends, else throws; get of a bool
      wants "true" or "false", which is what the writer's write(bool) produces.
    The white space that the writer adds to indent tags is left out: it only appears where there are child elements.
    Character data of an element are kept in one piece, in front of its children: no function below mixes them.
    operator>> of a stream is the one of the C++ standard (num_get, base 10).
    Floating-point numbers are left out here. *)
From Coq Require Import String List Arith NArith ZArith Bool Ascii.
From Verif Require Import Base NerscHeader.
Import ListNotations.
Local Open Scope nat_scope.
Local Notation length := List.length.

(** How a call ends: [Ret], a C++ exception of type std::string, the end of the program, or undefined behaviour. *)
Inductive out (A : Type) := Ret (a : A) | Raise | Halt | Wild.
Arguments Ret {A} a.
Arguments Raise {A}.
Arguments Halt {A}.
Arguments Wild {A}.
Definition obind {A B} (r : out A) (f : A -> out B) : out B :=
  match r with Ret a => f a | Raise => Raise | Halt => Halt | Wild => Wild end.
Fixpoint omap {A B} (f : A -> out B) (l : list A) : out (list B) :=
  match l with
  | [] => Ret []
  | a :: l' => obind (f a) (fun b => obind (omap f l') (fun bs => Ret (b :: bs)))
  end.
Fixpoint ofold {A S} (f : A -> S -> out S) (l : list A) (s : S) : out S :=
  match l with [] => Ret s | a :: l' => obind (f a s) (ofold f l') end.

(** ** Documents *)
Inductive xml := Elem (name : string) (text : list N) (kids : list xml).
Definition xname (x : xml) : string := match x with Elem n _ _ => n end.
Definition xkids (x : xml) : list xml := match x with Elem _ _ k => k end.
(** The characters of an element and of everything in it *)
Fixpoint xtext (x : xml) : list N := match x with Elem _ t k => t ++ concat (map xtext k) end.

(** Characters that XML takes and gives back as they are; names of elements *)
Definition plain (c : N) : bool := ((c =? 9) || (c =? 10) || ((32 <=? c) && (c <=? 126)))%N.
Definition letter (c : N) : bool := (((65 <=? c) && (c <=? 90)) || ((97 <=? c) && (c <=? 122)) || (c =? 95))%N.
Definition legal (s : string) : bool :=
  match txt s with
  | [] => false
  | c :: r => letter c && forallb (fun c => letter c || ((48 <=? c) && (c <=? 57)) || (c =? 45) || (c =? 46))%N r
  end.
Fixpoint sound (x : xml) : bool :=
  match x with Elem n t k => legal n && forallb plain t && forallb sound k end.

(** ** The writer: lib/qdp_xmlio.cc 606-751 on the primary node *)

(** Open tags, the innermost first; the last one stands for the document. *)
Definition wst := list xml.
Definition new_writer : wst := [Elem "" [] []].
(** openTag (openStruct, push), 626-640, 749 *)
Definition open_tag (s : string) (w : wst) : out wst := Ret (Elem s [] [] :: w).
(** closeTag (closeStruct, pop), 631-634, 662-666, 752 *)
Definition close_tag (w : wst) : out wst :=
  match w with
  | f :: Elem n t k :: r => Ret (Elem n t (k ++ [f]) :: r)
  | _ => Halt
  end.
(** write(const std::string&), 689-693; the other overloads (694-738) write the characters of the number *)
Definition put_text (s : list N) (w : wst) : out wst :=
  match w with
  | Elem n t k :: r => Ret (Elem n (t ++ s) k :: r)
  | [] => Halt
  end.
(** XMLReader::open(const XMLBufferWriter&), 84-94: the document becomes the node of the reader *)
Definition open_reader (w : wst) : out xml :=
  match w with
  | [Elem n t [r]] => if sound r then Ret (Elem n t [r]) else Raise
  | _ => Raise
  end.

(** ** Queries *)
Definition step := (string * option nat)%type.
Definition path := list step.
Definition select1 (x : xml) (s : step) : list xml :=
  let m := filter (fun k => String.eqb (xname k) (fst s)) (xkids x) in
  match snd s with
  | None => m
  | Some i => match nth_error m (i - 1) with Some k => if i =? 0 then [] else [k] | None => [] end
  end.
Fixpoint select (x : xml) (p : path) : list xml :=
  match p with [] => [x] | s :: p' => flat_map (fun k => select k p') (select1 x s) end.
(** BasicXPathReader::get, and XMLReader(XMLReader&, xpath), lib/qdp_xmlio.cc 37-42, 96-105 *)
Definition node_at (x : xml) (p : path) : out xml :=
  match select x p with [k] => Ret k | _ => Raise end.
(** XMLReader::count, 242-251 *)
Definition count (x : xml) (p : path) : nat := length (select x p).

(** ** Numbers *)
Inductive kind := Signed (bits : nat) | Unsigned (bits : nat) | KBool.
(** The value that a numeral with the given sign and magnitude has for the type, if it has one.  A minus sign is allowed for
    unsigned types, the value is then taken modulo the number of values. *)
Definition fits (k : kind) (neg : bool) (m : N) : option Z :=
  let z := (if neg then - Z.of_N m else Z.of_N m)%Z in
  match k with
  | Signed b => if ((- 2 ^ (Z.of_nat b - 1) <=? z) && (z <? 2 ^ (Z.of_nat b - 1)))%Z then Some z else None
  | Unsigned b => if (Z.of_N m <? 2 ^ Z.of_nat b)%Z then Some (z mod 2 ^ Z.of_nat b)%Z else None
  | KBool => if ((z =? 0) || (z =? 1))%Z then Some z else None
  end.
(** stream >> T: a value and the remaining characters, or failure; the flag of a failure tells whether the end of the characters was
    reached (eofbit). *)
Inductive ext := Got (z : Z) (rest : list N) | Fail (eof : bool).
Definition at_end (s : list N) : bool := match s with [] => true | _ => false end.
Definition extract (k : kind) (s : list N) : ext :=
  match skip_ws s with
  | [] => Fail true
  | s1 =>
      let '(neg, s2) := sign s1 in
      match digits 10 0 0 s2 with
      | (O, _, r) => Fail (at_end r)
      | (_, m, r) => match fits k neg m with Some z => Got z r | None => Fail (at_end r) end
      end
  end.

(** BasicXPathReader::get of numbers and bools, 139-174, 182-191 *)
Definition get_num (k : kind) (s : list N) : out Z :=
  match k with
  | KBool => let w := skip_ws s in
             if at_end (skip_ws (skipn (length (word_of w)) w))
             then if same (word_of w) (txt "true") then Ret 1%Z
                  else if same (word_of w) (txt "false") then Ret 0%Z else Raise
             else Raise
  | _ => match extract k s with
         | Got z r => if at_end (skip_ws r) then Ret z else Raise
         | Fail _ => Raise
         end
  end.
Definition show_num (k : kind) (z : Z) : list N :=
  match k with KBool => if (z =? 0)%Z then txt "false" else txt "true" | _ => show_int z end.

(** while (list_stream >> dummy) ++array_size: the values and whether the end was reached.  Each success takes a character. *)
Fixpoint scan_all (fuel : nat) (k : kind) (s : list N) : list Z * bool :=
  match fuel with
  | O => ([], true)
  | S f => match extract k s with
           | Got z r => let '(l, e) := scan_all f k r in (z :: l, e)
           | Fail e => ([], e)
           end
  end.
Definition fuel_of (s : list N) : nat := S (length s).
(** list_stream2 >> dummy, n times; a failed extraction would leave the number 0 or the limit of the type *)
Fixpoint scan_n (n : nat) (k : kind) (s : list N) : out (list Z) :=
  match n with
  | O => Ret []
  | S n' => match extract k s with
            | Got z r => obind (scan_n n' k r) (fun l => Ret (z :: l))
            | Fail _ => Wild
            end
  end.
(** readArrayPrimitive, 311-355; readVectorPrimitive, 425-461 *)
Definition read_words (k : kind) (s : list N) : out (list Z) :=
  let '(l, eof) := scan_all (fuel_of s) k s in
  if negb eof then Raise else scan_n (length l) k s.
(** readListPrimitive, 525-542 *)
Definition read_list_words (k : kind) (s : list N) : out (list Z) := Ret (fst (scan_all (fuel_of s) k s)).
(** writeArrayPrimitive, 869-886; writeVectorPrimitive, 1009-1025; writeListPrimitive, 1142-1161: bools are written as 0 and 1 *)
Definition show_words (l : list Z) : list N :=
  match l with
  | [] => []
  | z :: r => show_int z ++ concat (map (fun z => 32%N :: show_int z) r)
  end.

(** ** Types and values *)
Inductive con := Multi1d | Vector | StdList.
Inductive ty :=
| TStr                       (* std::string *)
| TChar                      (* char *)
| TNum (k : kind)            (* int, unsigned, short, ..., bool, Integer, Boolean *)
| TSeq (c : con) (t : ty)    (* multi1d<T>, std::vector<T> (Array1dO<T>), std::list<T> *)
| TMap (k v : ty)            (* std::map<K,V> *)
| TPair (a b : ty)           (* std::pair<A,B> *)
| TComplex (t : ty)          (* RComplex<T> and scalars made of it *)
| TSeed.                     (* Seed: PSeed<RScalar<INTEGER32>> *)
Inductive value :=
| VStr (s : list N)
| VNum (z : Z)
| VSeq (l : list value)
| VMap (l : list (value * value))
| VPair (a b : value).
(** Overloads for arrays of these types write all elements between one pair of tags: 357-421, 464-520, 545-601. *)
Definition is_word (t : ty) : bool := match t with TNum _ => true | _ => false end.

(** operator< of the keys: strings and numbers *)
Fixpoint scompare (a b : list N) : comparison :=
  match a, b with
  | [], [] => Eq
  | [], _ => Lt
  | _, [] => Gt
  | x :: a', y :: b' => match N.compare x y with Eq => scompare a' b' | c => c end
  end.
Definition kcompare (a b : value) : comparison :=
  match a, b with
  | VStr s, VStr t => scompare s t
  | VNum x, VNum y => Z.compare x y
  | _, _ => Eq
  end.
(** std::map::insert: nothing happens if the key is there *)
Fixpoint map_insert (k v : value) (m : list (value * value)) : list (value * value) :=
  match m with
  | [] => [(k, v)]
  | (k', v') :: r =>
      match kcompare k k' with
      | Lt => (k, v) :: m
      | Eq => m
      | Gt => (k', v') :: map_insert k v r
      end
  end.

(** ** Writing *)
Definition elem_tag : string := "elem".
Definition words_of (l : list value) : out (list Z) :=
  omap (fun v => match v with VNum z => Ret z | _ => Wild end) l.
(** write(xml, s, d), by type: 784-851, 869-1005, 1009-1137, 1142-1285; include/qdp_xmlio.h 748-780 (arrays), 869-877
    (OScalar), 914-928 (vectors), 945-958 (lists), 976-981 (Array1dO), 987-1005 (maps), 1008-1019 (pairs); include/qdp_reality.h 427-440;
    include/qdp_primseed.h 170-190.  [Wild]: the value is not of the type (does not compile). *)
Fixpoint write (t : ty) (s : string) (v : value) (w : wst) : out wst :=
  match t, v with
  | TStr, VStr b => obind (open_tag s w) (fun w => obind (put_text b w) close_tag)
  | TChar, VStr [c] => obind (open_tag s w) (fun w => obind (put_text [c] w) close_tag)
  | TNum k, VNum z => obind (open_tag s w) (fun w => obind (put_text (show_num k z) w) close_tag)
  | TSeq _ t', VSeq l =>
      if is_word t'
      then obind (words_of l) (fun zs => obind (open_tag s w) (fun w => obind (put_text (show_words zs) w) close_tag))
      else obind (open_tag s w) (fun w => obind (ofold (fun v w => write t' elem_tag v w) l w) close_tag)
  | TMap tk tv, VMap l =>
      obind (open_tag s w) (fun w =>
      obind (ofold (fun e w => obind (open_tag elem_tag w) (fun w =>
                               obind (write tk "Key" (fst e) w) (fun w =>
                               obind (write tv "Val" (snd e) w) close_tag))) l w) close_tag)
  | TPair ta tb, VPair a b =>
      obind (open_tag s w) (fun w => obind (write ta "First" a w) (fun w => obind (write tb "Second" b w) close_tag))
  | TComplex t', VPair a b =>
      obind (open_tag s w) (fun w => obind (write t' "re" a w) (fun w => obind (write t' "im" b w) close_tag))
  | TSeed, VSeq l =>
      obind (open_tag s w) (fun w =>
      obind (open_tag "Seed" w) (fun w =>
      obind (ofold (fun i w => match nth_error l i with
                               | Some (VNum z) => obind (open_tag elem_tag w) (fun w => obind (put_text (show_int z) w) close_tag)
                               | _ => Wild
                               end) (seq 0 4) w) (fun w =>
      obind (close_tag w) close_tag)))
  | _, _ => Wild
  end.

(** ** Reading *)
Definition nth_path (i : nat) : path := [(elem_tag, Some (i + 1))].
Definition down (s : string) : path := [(s, None)].
(** The elements of an array or vector: include/qdp_xmlio.h 202-247, 274-324 *)
Definition read_elems (rd : xml -> path -> out value) (top : xml) : out (list value) :=
  omap (fun i => rd top (nth_path i)) (seq 0 (count top (down elem_tag))).
(** The elements of a list: include/qdp_xmlio.h 343-398.  The list is cleared (367), and the loop runs while i < input.size() (370). *)
Fixpoint list_loop (fuel i : nat) (rd : xml -> path -> out value) (top : xml) (input : list value) : out (list value) :=
  match fuel with
  | O => Ret input
  | S f => if i <? length input
           then obind (rd top (nth_path i)) (fun v => list_loop f (i + 1) rd top (input ++ [v]))
           else Ret input
  end.
Definition read_list (rd : xml -> path -> out value) (top : xml) : out (list value) :=
  list_loop (S (count top (down elem_tag))) 0 rd top [].
(** The elements of a map, inserted into what [m] holds already: include/qdp_xmlio.h 424-475 *)
Definition read_entries (rk rv : xml -> path -> out value) (ins : value -> value -> list (value * value) -> list (value * value))
    (top : xml) (m : list (value * value)) : out (list (value * value)) :=
  ofold (fun i m => obind (node_at top (nth_path i)) (fun e =>
                    obind (rk e (down "Key")) (fun k =>
                    obind (rv e (down "Val")) (fun v => Ret (ins k v m))))) (seq 0 (count top (down elem_tag))) m.
(** result = d[0]: of an empty string the terminating zero *)
Definition first_char (s : list N) : N := match s with c :: _ => c | [] => 0%N end.
Definition nums (l : list Z) : value := VSeq (map VNum l).
(** read(xml, path, d) into a new object, by type: lib/qdp_xmlio.cc 260-308, 310-601; include/qdp_xmlio.h 202-492;
    include/qdp_reality.h 443-480; include/qdp_primseed.h 193-205 *)
Fixpoint read (t : ty) (x : xml) (p : path) : out value :=
  match t with
  | TStr => obind (node_at x p) (fun n => Ret (VStr (xtext n)))
  | TChar => obind (node_at x p) (fun n => Ret (VStr [first_char (xtext n)]))
  | TNum k => obind (node_at x p) (fun n => obind (get_num k (xtext n)) (fun z => Ret (VNum z)))
  | TSeq c t' =>
      match t', c with
      | TNum k, StdList => obind (node_at x p) (fun n => obind (read_list_words k (xtext n)) (fun l => Ret (nums l)))
      | TNum k, _ => obind (node_at x p) (fun n => obind (read_words k (xtext n)) (fun l => Ret (nums l)))
      | _, StdList => obind (node_at x p) (fun top => obind (read_list (read t') top) (fun l => Ret (VSeq l)))
      | _, _ => obind (node_at x p) (fun top => obind (read_elems (read t') top) (fun l => Ret (VSeq l)))
      end
  | TMap tk tv =>
      obind (node_at x p) (fun top => obind (read_entries (read tk) (read tv) map_insert top []) (fun m => Ret (VMap m)))
  | TPair ta tb =>
      obind (node_at x p) (fun top =>
      obind (read ta top (down "First")) (fun a => obind (read tb top (down "Second")) (fun b => Ret (VPair a b))))
  | TComplex t' =>
      obind (read t' x (p ++ down "re")) (fun a => obind (read t' x (p ++ down "im")) (fun b => Ret (VPair a b)))
  | TSeed =>
      obind (node_at x (p ++ down "Seed")) (fun top =>
      obind (read_elems (fun x p => obind (node_at x p) (fun n =>
                         obind (get_num (Signed 32) (xtext n)) (fun z => Ret (VNum z)))) top) (fun ff =>
      (* ff[i] for i < 4, whatever the size of ff *)
      obind (omap (fun i => match nth_error ff i with Some v => Ret v | None => Wild end) (seq 0 4)) (fun l => Ret (VSeq l))))
  end.

(** Reading a std::map into one that is not empty: include/qdp_xmlio.h 424-475 (no clear()) *)
Definition read_into_map (tk tv : ty) (x : xml) (p : path) (old : list (value * value)) : out (list (value * value)) :=
  obind (node_at x p) (fun top => read_entries (read tk) (read tv) map_insert top old).
(** MapObjectMemory: include/qdp_map_obj_memory.h 115-132 (insert), 258-308 (read), 314-330 (write).  The order of the entries is the one of a hash table,
    here that of insertion. *)
Definition same_key (a b : value) : bool := match kcompare a b with Eq => true | _ => false end.
Fixpoint obj_insert (k v : value) (m : list (value * value)) : list (value * value) :=
  match m with
  | [] => [(k, v)]
  | (k', v') :: r => if same_key k k' then (k, v) :: r else (k', v') :: obj_insert k v r
  end.
Definition read_into_obj (tk tv : ty) (x : xml) (p : path) (old : list (value * value)) : out (list (value * value)) :=
  obind (node_at x p) (fun top => read_entries (read tk) (read tv) obj_insert top old).

(** A document: push(xml, root); write(xml, name, value) for each; pop(xml) *)
Definition write_doc (root : string) (l : list (string * ty * value)) : out wst :=
  obind (open_tag root new_writer) (fun w =>
  obind (ofold (fun e w => let '(s, t, v) := e in write t s v w) l w) close_tag).

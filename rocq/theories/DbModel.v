(** Model of the key-value database BinaryStoreDB (include/qdp_db_imp.h 26-456) used by programs
    that run on several nodes. The database library itself (FILEDB::ConfDataStoreDB) is not in the repository: it is any
    function from a state and a call to a state and a reply. Without it every method, the constructor first, ends the program
    (include/qdp_db_stub.h 134-282): not modelled. *)
From Coq Require Import String List ZArith Bool Arith.
Import ListNotations.
Local Open Scope nat_scope.

(** The methods, qdp_db_imp.h: constructor 44-53, destructor 58-61, setCacheSize 70-74, setCacheSizeMB 84-88, setPageSize 100-104,
    setNumberBuckets 115-119, enablePageMove 128-132, disablePageMove 134-138, setMaxUserInfoLen 143-147, getMaxUserInfoLen
    149-156, setMaxNumberConfigs 162-166, getMaxNumberConfigs 168-175, fileExists 182-189, open 203-216, close 218-230,
    exist 237-246, insert 257-269, insertBinary 279-291, get 300-311, getBinary 320-331, keys 337-343, keysAndData 351-357,
    binaryKeysAndData 366-373, flush 378-382, storageName 389-396, insertUserdata 406-418, getUserdata 426-445. *)
Inductive method :=
  | MSetCacheSize | MSetCacheSizeMB | MSetPageSize | MSetNumberBuckets | MEnablePageMove | MDisablePageMove | MSetMaxUserInfoLen
  | MGetMaxUserInfoLen | MSetMaxNumberConfigs | MGetMaxNumberConfigs | MFileExists | MOpen | MClose | MExist | MInsert
  | MInsertBinary | MGet | MGetBinary | MKeys | MKeysAndData | MBinaryKeysAndData | MFlush | MStorageName | MInsertUserdata
  | MGetUserdata.
(** What the methods are made of: if (primaryNode()) ret = db.f(...); else notImplemented(); broadcast(ret);
    if (ret != 0) QDP_abort(1); broadcast_str of the result. *)
Inductive stmt := OnPrimary | ElseStop | SendRet | Check | SendText.
Definition body (m : method) : list stmt :=
  match m with
  | MSetCacheSize | MSetCacheSizeMB | MSetPageSize | MSetNumberBuckets | MEnablePageMove | MDisablePageMove | MSetMaxUserInfoLen
  | MSetMaxNumberConfigs | MFlush => [OnPrimary]
  | MGetMaxUserInfoLen | MGetMaxNumberConfigs | MFileExists | MExist => [OnPrimary; SendRet]
  | MOpen | MClose | MInsert | MInsertBinary | MInsertUserdata => [OnPrimary; SendRet; Check]
  | MGet | MGetBinary => [OnPrimary; ElseStop; SendRet]
  | MKeys | MKeysAndData | MBinaryKeysAndData => [OnPrimary; ElseStop]
  | MStorageName => [OnPrimary; SendText]
  | MGetUserdata => [OnPrimary; SendRet; Check; SendText]
  end.
(** The value of ret before the call: bool ret = true in exist, 0 or false elsewhere. *)
Definition ret_before (m : method) : Z := match m with MExist => 1%Z | _ => 0%Z end.
(** Whether the method returns ret; whether it returns text or fills variables of the caller. The vectors of
    binaryKeysAndData are passed by value (366-367). *)
Definition returns_ret (m : method) : bool :=
  match m with MGetMaxUserInfoLen | MGetMaxNumberConfigs | MFileExists | MExist | MGet | MGetBinary => true | _ => false end.
Definition fills (m : method) : bool :=
  match m with MGet | MGetBinary | MKeys | MKeysAndData | MStorageName | MGetUserdata => true | _ => false end.

Section Model.
(** Arguments, contents (text, data, vectors of keys), and states of the database. *)
Variable Arg P St : Type.
Record reply := mkReply { r_ret : Z; r_val : option P }.
Variable back : method -> Arg -> St -> St * reply.

(** A call on one node: the method, the arguments, and what the variables to be filled hold before. *)
Record call := mkCall { c_meth : method; c_arg : Arg; c_old : P }.
(** What a node has while a method runs: ret and the contents for the caller. *)
Record env := mkEnv { e_ret : Z; e_val : P }.
(** What the caller gets: the value returned if there is one, and the variables. *)
Record result := mkResult { got_ret : option Z; got_val : P }.
(** All nodes in step; the first is the primary. Some node ending the program ends it. *)
Inductive outcome (A : Type) := Fine (s : St) (a : A) | Stop (s : St) | Undefined.
Arguments Fine {A} s a.
Arguments Stop {A} s.
Arguments Undefined {A}.
Definition exec1 (c : call) (t : stmt) (s : St) (p : env) (others : list env) : outcome (env * list env) :=
  match t with
  | OnPrimary => let (s', r) := back (c_meth c) (c_arg c) s in
                 Fine s' (mkEnv (r_ret r) (match r_val r with Some v => v | None => e_val p end), others)
  | ElseStop => match others with [] => Fine s (p, []) | _ => Stop s end
  | SendRet => Fine s (p, map (fun e => mkEnv (e_ret p) (e_val e)) others)
  | Check => if forallb (fun e => Z.eqb (e_ret e) 0) (p :: others) then Fine s (p, others) else Stop s
  | SendText => Fine s (p, map (fun e => mkEnv (e_ret e) (e_val p)) others)
  end.
Fixpoint execs (c : call) (l : list stmt) (s : St) (p : env) (others : list env) : outcome (env * list env) :=
  match l with
  | [] => Fine s (p, others)
  | t :: r => match exec1 c t s p others with
              | Fine s' (p', o') => execs c r s' p' o'
              | Stop s' => Stop s'
              | Undefined => Undefined
              end
  end.
(** Whether two methods communicate alike. *)
Definition stmt_eqb (x y : stmt) : bool :=
  match x, y with
  | OnPrimary, OnPrimary | ElseStop, ElseStop | SendRet, SendRet | Check, Check | SendText, SendText => true
  | _, _ => false
  end.
Fixpoint alike (a b : list stmt) : bool :=
  match a, b with [], [] => true | x :: a', y :: b' => stmt_eqb x y && alike a' b' | _, _ => false end.
Definition start (c : call) : env := mkEnv (ret_before (c_meth c)) (c_old c).
Definition leave (c : call) (e : env) : result :=
  mkResult (if returns_ret (c_meth c) then Some (e_ret e) else None) (if fills (c_meth c) then e_val e else c_old c).
(** The same method called on all nodes, each with its own arguments. Nodes in methods with other communications get each
    other's messages. *)
Definition exec (c : call) (others : list call) (s : St) : outcome (result * list result) :=
  if forallb (fun d => alike (body (c_meth c)) (body (c_meth d))) others then
    match execs c (body (c_meth c)) s (start c) (map start others) with
    | Fine s' (p, es) => Fine s' (leave c p, map (fun q => leave (fst q) (snd q)) (combine others es))
    | Stop s' => Stop s'
    | Undefined => Undefined
    end
  else Undefined.

(** Programs: what a node does next depends on what it got. *)
Inductive prog (A : Type) := Ret (a : A) | Do (c : call) (k : result -> prog A).
Arguments Ret {A} a.
Arguments Do {A} c k.
Fixpoint heads {A} (l : list (prog A)) : option (list (call * (result -> prog A))) :=
  match l with
  | [] => Some []
  | Do c k :: r => option_map (cons (c, k)) (heads r)
  | Ret _ :: _ => None
  end.
Fixpoint values {A} (l : list (prog A)) : option (list A) :=
  match l with
  | [] => Some []
  | Ret a :: r => option_map (cons a) (values r)
  | Do _ _ :: _ => None
  end.
Fixpoint run {A} (p : prog A) (others : list (prog A)) (s : St) : outcome (A * list A) :=
  match p with
  | Ret a => match values others with Some l => Fine s (a, l) | None => Undefined end
  | Do c k =>
      match heads others with
      | Some hs =>
          match exec c (map fst hs) s with
          | Fine s' (r, rs) => run (k r) (map (fun q => snd (fst q) (snd q)) (combine hs rs)) s'
          | Stop s' => Stop s'
          | Undefined => Undefined
          end
      | None => Undefined
      end
  end.
Fixpoint bind {A B} (p : prog A) (g : A -> prog B) : prog B :=
  match p with Ret a => g a | Do c k => Do c (fun r => bind (k r) g) end.
(** The life of a database object: the constructor sets the cache size to 50 MB and one configuration (47-52), the destructor
    closes. *)
Definition life {A} (cache one none : Arg) (old : P) (use : prog A) : prog A :=
  Do (mkCall MSetCacheSize cache old) (fun _ => Do (mkCall MSetMaxNumberConfigs one old) (fun _ =>
  bind use (fun a => Do (mkCall MClose none old) (fun _ => Ret a)))).
End Model.
Arguments Fine {St A} s a.
Arguments Stop {St A} s.
Arguments Undefined {St A}.
Arguments Ret {Arg P A} a.
Arguments Do {Arg P A} c k.
Arguments mkCall {Arg P} c_meth c_arg c_old.
Arguments mkReply {P} r_ret r_val.
Arguments mkResult {P} got_ret got_val.

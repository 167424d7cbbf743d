(** * Attributes of modules and of the standard library, as contract code can set them

    linter.py 65-73 looks at the names of attributes, not at whether they are assigned to, so `m.f = v` and `del m.f` are
    contract code for every imported contract m and every object of the standard library.  This file has the objects such
    statements change.  Simplifications: what a function is stays abstract (V); a transaction is the list of its
    statements in the order in which they finish, so the body of a contract, which is executed by its first import, comes
    before that import; imports in a circle are left out; the stored code does not change during a transaction; statements
    that raise (an import of an unknown contract, an attribute of one that was not imported) do nothing here. *)
From Verif Require Import Model.Base.

Section Attributes.
  (** what a name can be bound to *)
  Variable V : Type.
  (** a Python dict with text keys: vars(module), the globals of a function *)
  Definition namespace : Type := list (pystr * V).
  (** Python: d.get(a) *)
  Fixpoint bound (a : pystr) (d : namespace) : option V :=
    match d with [] => None | (b, v) :: d' => if str_eqb a b then Some v else bound a d' end.
  (** Python: del d[a], if it is there *)
  Definition unbind (a : pystr) (d : namespace) : namespace := filter (fun b => negb (str_eqb a (fst b))) d.
  (** Python: d[a] = v *)
  Definition bind (a : pystr) (v : V) (d : namespace) : namespace := (a, v) :: unbind a d.

  (** A loaded contract.  module.py 105-115: [scope] is the dict the code was executed in, which is the globals of its functions;
      [visible] is vars(module), into which the scope was copied, and which m.f reads and m.f = v writes. *)
  Record module_object : Type := mkObject { scope : namespace; visible : namespace }.
  (** [mods]: sys.modules, the contracts in it; [loaded_modules]: rt.loaded_modules (runtime.py 89); [shared]: the objects of the
      standard library, made once when the process starts (stdlib/env.py 19-31, bridge/imports.py 95-104 and the other bridges). *)
  Record process : Type := mkProcess { mods : list (pystr * module_object); loaded_modules : list pystr; shared : list (pystr * namespace) }.
  (** Python: sys.modules.get(n); standard library object o *)
  Fixpoint entry {A : Type} (n : pystr) (l : list (pystr * A)) : option A :=
    match l with [] => None | (m, x) :: l' => if str_eqb n m then Some x else entry n l' end.
  (** the entry of n is changed in place *)
  Fixpoint change {A : Type} (n : pystr) (f : A -> A) (l : list (pystr * A)) : list (pystr * A) :=
    match l with [] => [] | (m, x) :: l' => if str_eqb n m then (m, f x) :: l' else (m, x) :: change n f l' end.

  (** What contract code does to these objects *)
  Inductive statement : Type :=
  | Import (n : pystr)                       (** import n, importlib.import_module(n) *)
  | SetAttr (n a : pystr) (v : V)            (** n.a = v, for a contract n *)
  | DelAttr (n a : pystr)                    (** del n.a *)
  | SetShared (o a : pystr) (v : V)          (** o.a = v, for an object of the standard library: hashlib.sha3 = v, Variable.get = v *)
  | DelShared (o a : pystr).                 (** del o.a *)

  (** [code n]: what the stored code of n defines, None if there is no contract n *)
  Variable code : pystr -> option namespace.
  (** module.py 88-119 exec_module: execute in a new scope, copy it into the module, remember the name *)
  Definition exec_module (n : pystr) (defs : namespace) (p : process) : process :=
    mkProcess ((n, mkObject defs defs) :: mods p) (loaded_modules p ++ [n]) (shared p).
  (** importlib _find_and_load: what is in sys.modules is not executed again; module.py 78-82 find_spec *)
  Definition import_ (n : pystr) (p : process) : process :=
    match entry n (mods p) with
    | Some _ => p
    | None => match code n with Some defs => exec_module n defs p | None => p end
    end.
  (** one statement.  Python's setattr and delattr on a module object or a class write its dict *)
  Definition step (s : statement) (p : process) : process :=
    match s with
    | Import n => import_ n p
    | SetAttr n a v => mkProcess (change n (fun m => mkObject (scope m) (bind a v (visible m))) (mods p)) (loaded_modules p) (shared p)
    | DelAttr n a => mkProcess (change n (fun m => mkObject (scope m) (unbind a (visible m))) (mods p)) (loaded_modules p) (shared p)
    | SetShared o a v => mkProcess (mods p) (loaded_modules p) (change o (bind a v) (shared p))
    | DelShared o a => mkProcess (mods p) (loaded_modules p) (change o (unbind a) (shared p))
    end.
  (** the statements of a transaction, in the order they are executed *)
  Definition steps (l : list statement) (p : process) : process := fold_left (fun q s => step s q) l p.
  (** runtime.py 112-125 clean_up: del sys.modules[mod] for the loaded modules; the standard library stays *)
  Definition clean_up (p : process) : process :=
    mkProcess (filter (fun m => negb (str_mem (fst m) (loaded_modules p))) (mods p)) [] (shared p).
  (** a transaction: its statements, then executor.py 183 *)
  Definition transaction (l : list statement) (p : process) : process := clean_up (steps l p).

  (** n.a as other contracts and the executor (executor.py 115-116 getattr) see it *)
  Definition seen_by_others (n a : pystr) (p : process) : option V :=
    match entry n (mods p) with Some m => bound a (visible m) | None => None end.
  (** the name a in the functions of n itself: their globals *)
  Definition seen_by_itself (n a : pystr) (p : process) : option V :=
    match entry n (mods p) with Some m => bound a (scope m) | None => None end.
  (** o.a for an object of the standard library, for every contract *)
  Definition provided (o a : pystr) (p : process) : option V :=
    match entry o (shared p) with Some d => bound a d | None => None end.
End Attributes.
Arguments Import {V}. Arguments SetAttr {V}. Arguments DelAttr {V}. Arguments SetShared {V}. Arguments DelShared {V}.

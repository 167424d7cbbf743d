(** * stdlib/bridge/imports.py: Func, Var, enforce_interface

    Python objects are modelled as far as these functions look at them.  A module's attributes are
    a dict.  Not modelled: argument names given to Func that are not strings, subclasses of the
    ORM classes other than those of bridge/orm.py, bound methods and other objects that are not functions
    but have a __code__. *)
From Verif Require Import Model.Base.

(** The ORM classes: storage/orm.py 10, 16, 42, 128, 139, 159 and stdlib/bridge/orm.py 6-48 (the names contracts see are the second group) *)
Inductive ormclass : Type := KDatum | KVariable | KHash | KForeignVariable | KForeignHash | KLogEvent | KV | KH | KFV | KFH | KLE.
(** storage/orm.py 16, 42, 128, 139, 159 and bridge/orm.py 6-48: the class statement's base *)
Definition base_class (c : ormclass) : option ormclass :=
  match c with
  | KDatum => None
  | KVariable | KHash | KLogEvent => Some KDatum
  | KForeignVariable | KV => Some KVariable
  | KForeignHash | KH => Some KHash
  | KFV => Some KForeignVariable
  | KFH => Some KForeignHash
  | KLE => Some KLogEvent
  end.
(** Python: a is b for classes *)
Definition ormclass_eqb (a b : ormclass) : bool :=
  match a, b with
  | KDatum, KDatum | KVariable, KVariable | KHash, KHash | KForeignVariable, KForeignVariable | KForeignHash, KForeignHash | KLogEvent, KLogEvent
  | KV, KV | KH, KH | KFV, KFV | KFH, KFH | KLE, KLE => true
  | _, _ => false
  end.
(** isinstance of an object of class c: the class itself or a class above it (four levels at most) *)
Fixpoint isinst (n : nat) (c t : ormclass) : bool :=
  ormclass_eqb c t || match n, base_class c with S n', Some b => isinst n' b t | _, _ => false end.
(** Python: isinstance(x, C) (imports.py 44-47) *)
Definition is_instance : ormclass -> ormclass -> bool := isinst 3.

(** A code object: its name and its argument names, co_varnames[:co_argcount]: not the keyword-only and starred ones *)
Record codeobj : Type := mkCode { co_name : pystr; co_args : list pystr }.
(** What a closure cell holds: a function (only its code is looked at), another object, nothing *)
Inductive cell : Type := CellFunction (c : codeobj) | CellObject | CellEmpty.
(** __closure__: None, or a tuple of at least one cell *)
Record pyfunc : Type := mkPyfunc { pf_code : codeobj; pf_closure : option (cell * list cell) }.
(** what vars(m).get(name) gives (imports.py 69-72) *)
Inductive attribute : Type := AtNone | AtFunction (f : pyfunc) | AtDatum (c : ormclass) | AtObject.
(** the args of Func: a tuple of names, or something that is no tuple (a list is never equal to a tuple) *)
Inductive argspec : Type := ArgTuple (l : list pystr) | ArgOther.
(** imports.py 16-47: a Func or a Var *)
Inductive requirement : Type := RFunc (name : pystr) (args : argspec) | RVar (name : pystr) (t : ormclass).
(** imports.py 17-22, 38-42: its name *)
Definition req_name (r : requirement) : pystr := match r with RFunc n _ => n | RVar n _ => n end.
(** constants.py 10 PRIVATE_METHOD_PREFIX *)
Definition PRIVATE := u "__".
(** imports.py 16-23 Func.__init__ *)
Definition new_Func (name : pystr) (args : argspec) (private : bool) : requirement := RFunc (if private then PRIVATE ++ name else name) args.
(** imports.py 38-42 Var.__init__; every class here is a Datum *)
Definition new_Var (name : pystr) (t : ormclass) : requirement := RVar (PRIVATE ++ name) t.
(** Python: a == b for tuples of str (imports.py 32) *)
Fixpoint names_eqb (a b : list pystr) : bool :=
  match a, b with [], [] => true | x :: a', y :: b' => str_eqb x y && names_eqb a' b' | _, _ => false end.
(** imports.py 11-13 extract_closure, 25-35 Func.is_of *)
Definition code_of (f : pyfunc) : result codeobj :=
  match pf_closure f with
  | None => Ok (pf_code f)
  | Some (CellFunction c, _) => Ok c
  | Some (CellObject, _) => Err EAttribute
  | Some (CellEmpty, _) => Err EValue
  end.
(** imports.py 25-35 Func.is_of *)
Definition func_is_of (name : pystr) (args : argspec) (f : pyfunc) : result bool :=
  do c <- code_of f;
  Ok (str_eqb (co_name c) name && match args with ArgTuple l => names_eqb (co_args c) l | ArgOther => false end)%bool.
(** i.is_of(attribute), imports.py 25-35 and 44-47, by kind of requirement and attribute: a Datum has no __closure__ *)
Definition is_of (r : requirement) (a : attribute) : result bool :=
  match r, a with
  | RFunc n l, AtFunction f => func_is_of n l f
  | RFunc _ _, _ => Err EAttribute
  | RVar _ t, AtDatum c => Ok (is_instance c t)
  | RVar _ _, _ => Ok false
  end.
(** imports.py 69-85 enforce_interface *)
Fixpoint enforce_interface (m : dict attribute) (interface : list requirement) : result bool :=
  match interface with
  | [] => Ok true
  | i :: rest =>
      match dget (req_name i) m with
      | None | Some AtNone => Ok false
      | Some AtObject => enforce_interface m rest
      | Some a => do b <- is_of i a; if b then enforce_interface m rest else Ok false
      end
  end.

(** ** The module of a contract *)
(** What the top level of a contract's source declares: an exported function, an undecorated function, an ORM object, any other object *)
Inductive decl : Type :=
| DExport (name : pystr) (args : list pystr)
| DPrivate (name : pystr) (args : list pystr)
| DOrm (name : pystr) (c : ormclass)
| DOther (name : pystr).
(** compiler.py 34-44, 66-108 (renaming, see Model/Compiler.v) and contextlib.ContextDecorator.__call__: the wrapper 'inner' has the free variables
    func and self (in this order), and the name and code of its own *)
Definition decl_attr (d : decl) : pystr * attribute :=
  match d with
  | DExport n args => (n, AtFunction (mkPyfunc (mkCode (u "inner") []) (Some (CellFunction (mkCode n args), [CellObject]))))
  | DPrivate n args => (PRIVATE ++ n, AtFunction (mkPyfunc (mkCode (PRIVATE ++ n) args) None))
  | DOrm n c => (PRIVATE ++ n, AtDatum c)
  | DOther n => (n, AtObject)
  end.
(** module.py 109-121: the code runs in a scope that starts with the standard library and the environment; the scope becomes the module's attributes *)
Definition module_attrs (scope : dict attribute) (ds : list decl) : dict attribute := fold_left (fun m d => dset (fst (decl_attr d)) (snd (decl_attr d)) m) ds scope.

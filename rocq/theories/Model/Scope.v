(** * The names of a loaded contract: execution/module.py exec_module and stdlib/env.py gather

    Model/Exec.v takes for granted that a loaded contract is marked as one and is remembered under its name.  Both are entries of
    the dict its code is executed in, and the code can bind them: linter.py has no check of the name of a def (167-231) and of the
    name after 'as' in an import (75-81).  Simplifications: the body of a contract is the list of the names it binds at the top
    level, in order; a value of __name__ that cannot be hashed, on which clean_up raises, is taken as one that is not in sys.modules. *)
From Verif Require Import Model.Base Model.Dec Model.Time Model.Value.
Export Coq.Strings.String.
Local Open Scope string_scope.
Local Open Scope list_scope.

(** What a name is bound to: an object of the standard library, a value of the environment, True, a function of the contract, a
    module, any other object its code makes *)
Inductive bound_to : Type := Library (n : string) | Given (v : pyval) | Marker | Function (f : nat) | Module (m : pystr) | Object (o : nat).
(** a dict with text keys *)
Definition scope : Type := list (pystr * bound_to).
(** Python: d[n] = v *)
Fixpoint put (n : pystr) (v : bound_to) (d : scope) : scope :=
  match d with [] => [(n, v)] | (m, w) :: d' => if str_eqb n m then (m, v) :: d' else (m, w) :: put n v d' end.
(** Python: d.get(n) *)
Fixpoint get (n : pystr) (d : scope) : option bound_to :=
  match d with [] => None | (m, w) :: d' => if str_eqb n m then Some w else get n d' end.
(** Python: d.update(e) *)
Definition update (d e : scope) : scope := fold_left (fun a b => put (fst b) (snd b) a) e d.

(** the dicts called exports of bridge/orm.py 49-56, hashing.py 42-44, time.py 230-232, random.py 95-97, imports.py 101-103,
    access.py 37-42, decimal.py 158-160, crypto.py 34-36 *)
Definition exports : list (list string) :=
  [["Variable"; "Hash"; "ForeignVariable"; "ForeignHash"; "LogEvent"; "__Contract"]; ["hashlib"]; ["datetime"]; ["random"]; ["importlib"];
   ["__export"; "ctx"; "rt"; "Any"]; ["decimal"]; ["crypto"]].
(** stdlib/env.py 18-30 gather *)
Definition gather : scope := fold_left update (map (map (fun n => (u n, Library n))) exports) [].
(** the name of the mark (module.py 108) *)
Definition CONTRACT : pystr := u "__contract__".
(** the name of the name *)
Definition NAME : pystr := u "__name__".
(** module.py 105-111: the scope after the code has been executed.  [env] is rt.env *)
Definition scope_of (env : list (pystr * pyval)) (body : scope) : scope :=
  update (put CONTRACT Marker (update gather (map (fun b => (fst b, Given (snd b))) env))) body.

(** what is in rt.loaded_modules: a text, or another object *)
Inductive remembered : Type := Text (n : pystr) | Thing.
(** module.py 114-117: vars(module).update(scope), then module.__name__, which importlib had set to the name *)
Definition remembered_as (n : pystr) (s : scope) : remembered :=
  match get NAME s with None => Text n | Some (Given (VStr t)) => Text t | Some _ => Thing end.
(** [modules]: sys.modules, the contracts in it with their scopes; [remember]: rt.loaded_modules (runtime.py 89) *)
Record process : Type := mkProcess { modules : list (pystr * scope); remember : list remembered }.
(** sys.modules.get(n) *)
Fixpoint module_of (n : pystr) (l : list (pystr * scope)) : option scope :=
  match l with [] => None | (m, s) :: l' => if str_eqb n m then Some s else module_of n l' end.
(** the stored code: what the body of each contract binds; None: no such contract *)
Definition codes : Type := pystr -> option scope.
(** importlib _find_and_load and module.py 88-119 exec_module: what is in sys.modules is not executed again *)
Definition import_contract (C : codes) (env : list (pystr * pyval)) (n : pystr) (p : process) : process :=
  match module_of n (modules p) with
  | Some _ => p
  | None => match C n with
            | None => p
            | Some body => let s := scope_of env body in mkProcess ((n, s) :: modules p) (remember p ++ [remembered_as n s])
            end
  end.
(** the imports of a transaction, in the order in which they finish *)
Definition imports (C : codes) (env : list (pystr * pyval)) (l : list pystr) (p : process) : process := fold_left (fun q n => import_contract C env n q) l p.
(** runtime.py 120-122: del sys.modules[mod] *)
Definition forgets (r : remembered) (n : pystr) : bool := match r with Text t => str_eqb t n | Thing => false end.
(** runtime.py 112-125 clean_up *)
Definition clean_up (p : process) : process := mkProcess (filter (fun m => negb (existsb (fun r => forgets r (fst m)) (remember p))) (modules p)) [].
(** a transaction with the environment [env], as far as the modules go (executor.py 95, 115, 183) *)
Definition transaction (C : codes) (env : list (pystr * pyval)) (l : list pystr) (p : process) : process := clean_up (imports C env l p).

(** module.py 28-34 restricted_import, of the plain name [m] by code with the globals [g]: is it let through to Python's own import?
    [contract m]: its spec has a DatabaseLoader *)
Definition lets_through (contract : pystr -> bool) (g : scope) (m : pystr) : bool :=
  match get CONTRACT g with Some Marker => contract m | _ => true end.
(** tracer.py 102-103: is a line of code with the globals [g] charged? *)
Definition charged (g : scope) : bool := match get CONTRACT g with Some _ => true | None => false end.

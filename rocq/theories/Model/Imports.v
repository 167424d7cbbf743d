(** * Import statements with dotted names: execution/module.py over CPython 3.11's importlib

    Model/Exec.v has what contracts do when names are plain; this file is the import system itself: sys.modules, parents
    before children, what a contract's import runs before it is refused.  Simplifications: what the body of a contract
    does besides importing is left out (Model/Exec.v has it); a name is its components, the last one first ("a.b" is
    [b; a]); namespace packages and sys.modules entries set to None do not occur. *)
From Verif Require Import Model.Base.

(** a dotted module name: its components, the last one first *)
Definition name : Type := list pystr.
(** equality of names *)
Fixpoint name_eqb (a b : name) : bool :=
  match a, b with [], [] => true | x :: a', y :: b' => (str_eqb x y && name_eqb a' b')%bool | _, _ => false end.
(** What a module in sys.modules is: a contract (its spec has a DatabaseLoader) or a Python module (is it a package: has it a __path__) *)
Inductive origin : Type := Contract | Python (package : bool).
(** sys.modules; which bodies were started, latest first *)
Record world : Type := mkWorld { w_mods : list (name * origin); w_ran : list (origin * name) }.
(** Python: sys.modules.get(n) *)
Fixpoint lookup (n : name) (l : list (name * origin)) : option origin :=
  match l with [] => None | (m, o) :: l' => if name_eqb n m then Some o else lookup n l' end.
(** Python: sys.modules.get(n) *)
Definition loaded (n : name) (w : world) : option origin := lookup n (w_mods w).
(** importlib _load_unlocked: sys.modules[n] = module, then the body starts *)
Definition enter (n : name) (o : origin) (w : world) : world := mkWorld ((n, o) :: w_mods w) ((o, n) :: w_ran w).
(** importlib _load_unlocked: del sys.modules[n] *)
Definition forget (n : name) (w : world) : world := mkWorld (filter (fun m => negb (name_eqb n (fst m))) (w_mods w)) (w_ran w).

(** [i_python]: the Python modules that can be found: is it a package, and what its body does (anything; SystemExit and other
    BaseExceptions are [EBase]).  [i_contract]: the stored contracts (get_contract is not None), and the names their top-level code imports. *)
Record installation : Type := mkInst {
  i_python : name -> option (bool * (world -> result unit * world)); i_contract : name -> option (list name) }.

Section Import.
  Variable I : installation.
  (** is it a package: hasattr(module, '__path__').  A contract's spec has no submodule_search_locations (module.py 82) *)
  Definition package (n : name) (w : world) : bool := match loaded n w with Some (Python b) => b | _ => false end.
  (** the import statements at the top level of a contract, one after the other *)
  Fixpoint each_in_order (f : name -> world -> result unit * world) (l : list name) (w : world) : result unit * world :=
    match l with
    | [] => (Ok tt, w)
    | n :: l' => match f n w with (Ok _, w1) => each_in_order f l' w1 | r => r end
    end.
  (** importlib/_bootstrap.py _load_unlocked: enter, run the body, forget if that fails *)
  Definition run_body (n : name) (o : origin) (body : world -> result unit * world) (w : world) : result unit * world :=
    match body (enter n o w) with
    | (Ok _, w1) => (Ok tt, w1)
    | (Err e, w1) => (Err e, forget n w1)
    end.
  (** ..._find_and_load and _find_and_load_unlocked: the parent first, then DatabaseFinder (module.py 78-82), then Python's finders.
      [fuel] is the recursion limit.  [restricted]: builtins.__import__ is restricted_import (module.py 37-38), which
      the import statements of contract bodies go through. *)
  Fixpoint load (fuel : nat) (restricted : bool) (n : name) (w : world) {struct fuel} : result unit * world :=
    match fuel with
    | O => (Err ERecursion, w)
    | S k =>
      match loaded n w, n with
      | Some _, _ => (Ok tt, w)
      | None, [] => (Err EValue, w)
      | None, _ :: parent =>
        match (match parent with [] => (Ok tt, w) | _ => load k restricted parent w end) with
        | (Err e, w1) => (Err e, w1)
        | (Ok _, w1) =>
          match loaded n w1 with
          | Some _ => (Ok tt, w1)
          | None =>
            if match parent with [] => true | _ => package parent w1 end then
              match i_contract I n with
              | Some imports => run_body n Contract (each_in_order (statement k restricted) imports) w1
              | None => match i_python I n with
                        | Some (b, body) => run_body n (Python b) body w1
                        | None => (Err EImport, w1)
                        end
              end
            else (Err EImport, w1)
          end
        end
      end
    end
  (** An import statement in contract code.  module.py 28-34 restricted_import: importlib.util.find_spec looks in sys.modules; if the
      name is not there it imports the parent, for which it needs the __path__, and asks the finders about the name itself.
      That import has no globals, so line 29 lets it through. *)
  with statement (fuel : nat) (restricted : bool) (n : name) (w : world) {struct fuel} : result unit * world :=
    match fuel with
    | O => (Err ERecursion, w)
    | S k =>
      if negb restricted then load k restricted n w
      else match loaded n w, n with
      | Some Contract, _ => (Ok tt, w)
      | Some (Python _), _ => (Err EImport, w)
      | None, [] => (Err EValue, w)
      | None, _ :: parent =>
        match (match parent with [] => (Ok tt, w) | _ => load k restricted parent w end) with
        | (Err e, w1) => (Err e, w1)
        | (Ok _, w1) =>
          if (match parent with [] => true | _ => package parent w1 end && match i_contract I n with Some _ => true | None => false end)%bool
          then load k restricted n w1
          else (Err EImport, w1)
        end
      end
    end.
End Import.

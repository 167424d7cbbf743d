(** * Python syntax trees (the ast module of Python 3.11)

    ast.parse and the code generator astor are not modelled: everything here is about trees.
    A tree is kept generic: a node has a class name, a line number (operators, contexts, arguments
    and comprehensions have none), and named fields, in the order of its class's _fields. *)
From Verif Require Import Model.Base Model.State.
Export Coq.Strings.String.

(** The value of an ast.Constant; the text of a float is what str() gives *)
Inductive constant : Type :=
| CNone | CBool (b : bool) | CInt (z : Z) | CFloat (text : pystr) | CComplex (text : pystr) | CStr (s : pystr) | CBytes (b : list N) | CEllipsis.
(** [Ident]: a str field (id, name, arg, attr...); [Absent]: None; [Const]: a constant value *)
Inductive ast : Type :=
| Node (kind : string) (line : option Z) (fields : list (string * ast))
| Items (l : list ast)
| Ident (s : pystr)
| Const (c : constant)
| Absent.

(** n.f *)
Fixpoint field (f : string) (fs : list (string * ast)) : option ast :=
  match fs with
  | [] => None
  | (g, v) :: r => if String.eqb f g then Some v else field f r
  end.
(** Python: n.f as a whole attribute (AttributeError when missing), used by linter.py, compiler.py and parser.py throughout *)
Definition attr (f : string) (n : ast) : result ast :=
  match n with
  | Node _ _ fs => match field f fs with Some v => Ok v | None => Err EAttribute end
  | _ => Err EAttribute
  end.
(** Python: isinstance(n, ast.K), as in linter.py 141 and compiler.py 66-95 *)
Definition is_kind (k : string) (n : ast) : bool := match n with Node k' _ _ => String.eqb k k' | _ => false end.
(** Python: isinstance(n, ast.AST) *)
Definition is_node (n : ast) : bool := match n with Node _ _ _ => true | _ => false end.
(** n.lineno *)
Definition lineno (n : ast) : result Z := match n with Node _ (Some z) _ => Ok z | _ => Err EAttribute end.
(** the elements of a list field *)
Definition items (v : ast) : result (list ast) := match v with Items l => Ok l | _ => Err EType end.
(** the str value of an identifier field, such as node.id (linter.py 49-63) *)
Definition ident (v : ast) : result pystr := match v with Ident s => Ok s | _ => Err EType end.
(** the list field n.f, such as node.body or node.decorator_list (compiler.py 66-95) *)
Definition attrs (f : string) (n : ast) : result (list ast) := do v <- attr f n; items v.
(** the identifier field n.f, such as node.name (linter.py 167-231) *)
Definition attr_id (f : string) (n : ast) : result pystr := do v <- attr f n; ident v.
(** Python: isinstance(n, (ast.K1, ast.K2, ...)) and type(n) not in whitelist (linter.py 30-34) *)
Definition kind_in (l : list string) (n : ast) : bool := match n with Node k _ _ => existsb (String.eqb k) l | _ => false end.

(** ast.iter_child_nodes; Python's trees have no lists of lists *)
Definition kids_of (v : ast) : list ast := match v with Items l => filter is_node l | Node _ _ _ => [v] | _ => [] end.
(** Python: ast.iter_child_nodes(n), Lib/ast.py, used by generic_visit (linter.py, compiler.py) *)
Definition kids (n : ast) : list ast := match n with Node _ _ fs => flat_map (fun fv => kids_of (snd fv)) fs | _ => [] end.
(** ast.walk: breadth first.  [fuel]: more than the depth of the tree. *)
Fixpoint levels (fuel : nat) (l : list ast) : list ast :=
  match fuel with
  | O => []
  | S n => match l with [] => [] | _ => l ++ levels n (flat_map kids l) end
  end.
(** the depth of a tree: fuel for [levels], no code *)
Fixpoint depth (n : ast) : nat :=
  match n with
  | Node _ _ fs => S ((fix go fs := match fs with [] => O | (_, v) :: r => Nat.max (depth v) (go r) end) fs)
  | Items l => (fix go l := match l with [] => O | v :: r => Nat.max (depth v) (go r) end) l
  | _ => O
  end.
(** Python: ast.walk(n), Lib/ast.py, used by linter.py 278-287, compiler.py 18-48 and client.py 256 *)
Definition walk (n : ast) : list ast := levels (depth n) [n].

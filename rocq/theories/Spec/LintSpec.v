(** * What the properties of the linter and the compiler talk about *)
From Verif Require Import Model.Base Model.Ast.
Local Open Scope string_scope.
Local Open Scope list_scope.

(** All nodes of a tree, at any depth *)
Fixpoint nodes (n : ast) : list ast :=
  match n with
  | Node _ _ fs => n :: (fix go fs := match fs with [] => [] | (_, v) :: r => nodes v ++ go r end) fs
  | Items l => (fix go l := match l with [] => [] | v :: r => nodes v ++ go r end) l
  | _ => []
  end.
Definition kind_of (n : ast) : string := match n with Node k _ _ => k | _ => "" end.
(** Python's trees: the only nodes in an import statement are the aliases *)
Definition imports_ok (t : ast) : Prop := forall n m, In n (nodes t) -> kind_of n = "Import" -> In m (nodes n) -> m = n \/ kind_of m = "alias".
(** Python's trees: function definitions have a line number *)
Definition lines_ok (t : ast) : Prop := forall n, In n (nodes t) -> kind_of n = "FunctionDef" -> exists z, lineno n = Ok z.

(** ** Reading a tree *)
Definition has_field (n : ast) (f : string) (v : ast) : Prop := attr f n = Ok v.
(** a name or an attribute, with its identifier *)
Definition names_it (n : ast) (x : pystr) : Prop := (kind_of n = "Name" /\ has_field n "id" (Ident x)) \/ (kind_of n = "Attribute" /\ has_field n "attr" (Ident x)).
(** function definition [n] has the decorators [ds] *)
Definition decorators (n : ast) (ds : list ast) : Prop := kind_of n = "FunctionDef" /\ has_field n "decorator_list" (Items ds).
Definition named_decorator (x : string) (n : ast) : bool :=
  match n with
  | Node "FunctionDef" _ fs => match field "decorator_list" fs with
                               | Some (Items ds) => existsb (fun d => match attr_id "id" d with Ok s => str_eqb s (u x) | _ => false end) ds
                               | _ => false
                               end
  | _ => false
  end.
Definition exported := named_decorator "export".
Definition constructor := named_decorator "construct".

(** C53: the forbidden node kinds *)
Definition FORBIDDEN : list string :=
  ["ClassDef"; "AsyncFunctionDef"; "AsyncFor"; "AsyncWith"; "Await"; "Try"; "With"; "Lambda"; "Yield"; "YieldFrom"; "GeneratorExp"; "Global"; "Nonlocal"; "ImportFrom"; "MatMult"].
(** the builtins contracts may use *)
Definition USABLE : list string := ["Exception"; "False"; "None"; "True"; "abs"; "all"; "any"; "ascii"; "bin"; "bool"; "bytearray";
  "bytes"; "chr"; "dict"; "divmod"; "filter"; "format"; "frozenset"; "hex"; "int"; "isinstance"; "issubclass"; "import"; "len"; "list"; "map"; "max"; "min"; "oct"; "ord"; "pow"; "range"; "reversed";
  "round"; "set"; "sorted"; "str"; "sum"; "tuple"; "zip"; "float"].
Record clean (builtins modules : list pystr) (t : ast) : Prop := mkClean {
  cl_kinds : forall n, In n (nodes t) -> ~ In (kind_of n) FORBIDDEN;
  cl_names : forall n x, In n (nodes t) -> names_it n x -> startswith x (u "_") = false /\ endswith x (u "_") = false /\ x <> u "rt";
  cl_builtins : forall n x, In n (nodes t) -> kind_of n = "Name" -> has_field n "id" (Ident x) -> In x builtins -> exists y, In y USABLE /\ x = u y;
  cl_float : forall n f, In n (nodes t) -> kind_of n = "Call" -> has_field n "func" f -> kind_of f = "Name" -> In (u "float") builtins -> ~ has_field f "id" (Ident (u "float"));
  cl_imports : forall n l a x, In n (nodes t) -> kind_of n = "Import" -> has_field n "names" (Items l) -> In a l -> has_field a "name" (Ident x) -> ~ In x modules;
  cl_decorators : forall n ds, In n (nodes t) -> decorators n ds -> ds = [] \/ exists d, ds = [d] /\ (has_field d "id" (Ident (u "export")) \/ has_field d "id" (Ident (u "construct")));
  cl_constructor : List.length (filter constructor (nodes t)) <= 1;
  cl_export : exists n, In n (nodes t) /\ exported n = true }.

(** C57: argument [a] is annotated with the type [t]: a name, or a name and an attribute *)
Definition annotated (a : ast) (t : pystr) : Prop := exists x, has_field a "annotation" x /\
  (has_field x "id" (Ident t) \/ exists v p q, has_field x "value" v /\ has_field v "id" (Ident p) /\ has_field x "attr" (Ident q) /\ t = p ++ u "." ++ q).
Definition TYPES : list string := ["dict"; "list"; "str"; "int"; "float"; "bool"; "datetime.timedelta"; "datetime.datetime"; "Any"].
(** the positional-or-keyword arguments of a function definition *)
Definition has_args (n : ast) (l : list ast) : Prop := exists a, has_field n "args" a /\ has_field a "args" (Items l).
(** all the arguments of a function definition *)
Definition argument_of (n m : ast) : Prop := exists a, has_field n "args" a /\
  ((exists f l, (f = "posonlyargs" \/ f = "args" \/ f = "kwonlyargs") /\ has_field a f (Items l) /\ In m l) \/ ((has_field a "vararg" m \/ has_field a "kwarg" m) /\ kind_of m = "arg")).
(** Python goes through the whole of a set *)
Definition whole {A} (f : list A -> list A) : Prop := forall l x, In x (f l) <-> In x l.

(** C32, C58: [n] is an assignment of a new ORM object of class [c], with keywords [kws] *)
Definition orm_classes : list string := ["Variable"; "Hash"; "ForeignVariable"; "ForeignHash"; "LogEvent"].
Definition orm_assignment (n : ast) (c : pystr) (kws : list ast) : Prop := kind_of n = "Assign" /\ (exists x, In x orm_classes /\ c = u x) /\
  exists v f, has_field n "value" v /\ kind_of v = "Call" /\ has_field v "func" f /\ kind_of f = "Name" /\ has_field f "id" (Ident c) /\ has_field v "keywords" (Items kws).
Definition first_target (n : ast) (x : pystr) : Prop := exists t ts, has_field n "targets" (Items (t :: ts)) /\ has_field t "id" (Ident x).

(** * What compiled code is (C58 - C60) *)
From Verif Require Import Model.Base Model.Ast.
From Verif Require Import Spec.LintSpec.
Local Open Scope string_scope.
Local Open Scope list_scope.

(** ** The classes of Python's ast module the compiler looks into: their fields, in order *)
Definition def_node ln (x : pystr) a b (ds : list ast) r tc : ast :=
  Node "FunctionDef" ln [("name", Ident x); ("args", a); ("body", b); ("decorator_list", Items ds); ("returns", r); ("type_comment", tc)].
Definition assign_node ln (ts : list ast) v tc : ast := Node "Assign" ln [("targets", Items ts); ("value", v); ("type_comment", tc)].
Definition name_of ln x ctx : ast := Node "Name" ln [("id", Ident x); ("ctx", ctx)].
Definition constant_node ln c k : ast := Node "Constant" ln [("value", Const c); ("kind", k)].
Definition the_call ln f (args kws : ast) : ast := Node "Call" ln [("func", f); ("args", args); ("keywords", kws)].
(** a type comment: a str or None *)
Definition comment (v : ast) : Prop := v = Absent \/ exists s, v = Ident s.
Definition shape (n : ast) : Prop :=
  (kind_of n = "Name" -> exists ln x c, n = name_of ln x (Node c None [])) /\
  (kind_of n = "Constant" -> exists ln c k, n = constant_node ln c k /\ nodes k = []) /\
  (kind_of n = "FunctionDef" -> exists ln x a b ds r tc, n = def_node ln x a b ds r tc /\ comment tc) /\
  (kind_of n = "Assign" -> exists ln ts v tc, n = assign_node ln ts v tc /\ comment tc) /\
  (kind_of n = "Call" -> exists ln f args kws, n = the_call ln f args (Items kws)) /\
  (forall x, has_field n "id" x -> kind_of n = "Name").
Definition python_tree (t : ast) : Prop := forall n, In n (nodes t) -> shape n.

(** ** The names that are renamed *)
(** an undecorated function; at any depth *)
Definition private_name (t : ast) (x : pystr) : Prop := exists n, In n (nodes t) /\ decorators n [] /\ has_field n "name" (Ident x).
(** a variable, hash or event *)
Definition orm_name (t : ast) (x : pystr) : Prop := exists n c kws, In n (nodes t) /\ orm_assignment n c kws /\ first_target n x.
Definition renaming (t : ast) (R : pystr -> pystr) : Prop := forall x, ((private_name t x \/ orm_name t x) -> R x = u "__" ++ x) /\ (~ private_name t x -> ~ orm_name t x -> R x = x).

(** ** The compiled tree *)
Definition text (s : pystr) : ast := constant_node None (CStr s) Absent.
(** decimal('...') *)
Definition decimal_call (s : pystr) : ast := the_call None (name_of None (u "decimal") (Node "Load" None [])) (Items [text s]) (Items []).
(** name='...' *)
Definition keyword_text (x : string) (s : pystr) : ast := Node "keyword" None [("arg", Ident (u x)); ("value", text s)].
(** The decorator is a name like others: renamed when the contract has a function of that name. *)
Inductive compiled (m : pystr) (R : pystr -> pystr) : ast -> ast -> Prop :=
| C_ident s : compiled m R (Ident s) (Ident s)
| C_const c : compiled m R (Const c) (Const c)
| C_absent : compiled m R Absent Absent
| C_items l l' : Forall2 (compiled m R) l l' -> compiled m R (Items l) (Items l')
| C_name ln x ctx : compiled m R (name_of ln x ctx) (name_of ln (R x) ctx)
| C_float ln s k : compiled m R (constant_node ln (CFloat s) k) (decimal_call s)
| C_constant ln c k : (forall s, c <> CFloat s) -> compiled m R (constant_node ln c k) (constant_node ln c k)
| C_private ln x a b r tc a' b' r' : compiled m R a a' -> compiled m R b b' -> compiled m R r r' ->
    compiled m R (def_node ln x a b [] r tc) (def_node ln (u "__" ++ x) a' b' [] r' tc)
| C_constructor ln x a b d r tc a' b' r' : has_field d "id" (Ident (u "construct")) -> compiled m R a a' -> compiled m R b b' -> compiled m R r r' ->
    compiled m R (def_node ln x a b [d] r tc) (def_node ln (u "____") a' b' [] r' tc)
| C_export ln x a b ld ctx r tc a' b' r' : compiled m R a a' -> compiled m R b b' -> compiled m R r r' ->
    compiled m R (def_node ln x a b [name_of ld (u "export") ctx] r tc) (def_node ln x a' b' [the_call None (name_of ld (R (u "__export")) ctx) (Items [text m]) (Items [])] r' tc)
| C_orm ln lv f args kws ts tc c x f' args' kws' ts' : orm_assignment (assign_node ln ts (the_call lv f args (Items kws)) tc) c kws -> first_target (assign_node ln ts (the_call lv f args (Items kws)) tc) x ->
    compiled m R f f' -> compiled m R args args' -> Forall2 (compiled m R) kws kws' -> Forall2 (compiled m R) ts ts' ->
    compiled m R (assign_node ln ts (the_call lv f args (Items kws)) tc)
                 (assign_node ln ts' (the_call lv f' args' (Items (kws' ++ [keyword_text "contract" m; keyword_text "name" x]))) tc)
| C_assign ln ts v tc ts' v' : (forall c kws, ~ orm_assignment (assign_node ln ts v tc) c kws) -> Forall2 (compiled m R) ts ts' -> compiled m R v v' ->
    compiled m R (assign_node ln ts v tc) (assign_node ln ts' v' tc)
| C_node k ln fs fs' : ~ In k ["Name"; "Constant"; "FunctionDef"; "Assign"] -> Forall2 (fun a b => fst a = fst b /\ compiled m R (snd a) (snd b)) fs fs' ->
    compiled m R (Node k ln fs) (Node k ln fs').

(** ** The methods and variables of a contract (C60, C74) *)
(** Python's trees have no lists of lists *)
Definition flat (t : ast) : Prop := forall k ln fs f l l', In (Node k ln fs) (nodes t) -> In (f, Items l) fs -> ~ In (Items l') l.
(** the arguments of a function definition, and their names *)
Definition arguments_ok (t : ast) : Prop := forall n, In n (nodes t) -> kind_of n = "FunctionDef" -> exists a l, has_field n "args" a /\ kind_of a = "arguments" /\ has_field a "args" (Items l) /\
  forall x, In x l -> kind_of x = "arg" /\ exists y, has_field x "arg" (Ident y).
(** an exported function whose name does not start with "__" *)
Definition public (n : ast) : bool := (exported n && match attr_id "name" n with Ok x => negb (startswith x (u "__")) | Err _ => false end)%bool.
(** no renamed name is the first name of an annotation, such as int or datetime *)
Definition types_kept (t : ast) : Prop := forall z y, private_name t z \/ orm_name t z -> In y TYPES -> startswith (u y) z = false.
(** [n] declares the variable or hash [x] *)
Definition declares (c : string) (n : ast) (x : pystr) : Prop := (exists kws, orm_assignment n (u c) kws) /\ first_target n x.

(** * compilation/linter.py, compilation/whitelists.py *)
From Verif Require Import Model.Base Model.State Model.Dec Model.Time Model.Value Model.Encoder Model.Hdf5 Model.Runtime Model.Ast.
Local Open Scope string_scope.
Local Open Scope list_scope.

(** whitelists.py 3-7 *)
Definition ALLOWED_BUILTINS : list pystr := map u ["Exception"; "False"; "None"; "True"; "abs"; "all"; "any"; "ascii"; "bin"; "bool"; "bytearray";
  "bytes"; "chr"; "dict"; "divmod"; "filter"; "format"; "frozenset"; "hex"; "int"; "isinstance"; "issubclass"; "import"; "len"; "list"; "map"; "max"; "min"; "oct"; "ord"; "pow"; "range"; "reversed";
  "round"; "set"; "sorted"; "str"; "sum"; "tuple"; "zip"]%string.
(** whitelists.py 21-40; ast.Ellipsis, ast.Interactive and ast.Suite are never the type of a node of a parsed module *)
Definition ILLEGAL_AST_TYPES : list string := ["AsyncFor"; "AsyncFunctionDef"; "AsyncWith"; "Await"; "ClassDef"; "Ellipsis"; "GeneratorExp"; "Global"; "ImportFrom"; "Interactive";
  "Lambda"; "MatMult"; "Nonlocal"; "Suite"; "Try"; "With"; "Yield"; "YieldFrom"].
(** whitelists.py 42 *)
Definition ALLOWED_ANNOTATION_TYPES : list pystr := map u ["dict"; "list"; "str"; "int"; "float"; "bool"; "datetime.timedelta"; "datetime.datetime"; "Any"]%string.
(** whitelists.py 11-19 (ast.Num, ast.Str, ast.NameConstant and ast.Index are aliases of Constant and of the index itself) *)
Definition ALLOWED_AST_TYPES : list string := ["Module"; "Eq"; "Call"; "Dict"; "Attribute"; "Pow"; "Index"; "Not"; "alias";
  "If"; "FunctionDef"; "Global"; "GtE"; "LtE"; "Load"; "arg"; "Add"; "Import";
  "ImportFrom"; "Name"; "Num"; "BinOp"; "Store"; "Assert"; "Assign"; "AugAssign";
  "Subscript"; "Compare"; "Return"; "NameConstant"; "Expr"; "keyword"; "Sub";
  "arguments"; "List"; "Set"; "Str"; "UnaryOp"; "Pass"; "Tuple"; "Div"; "In";
  "NotIn"; "Gt"; "Lt"; "Starred"; "Mod"; "NotEq"; "For"; "While"; "ListComp";
  "comprehension"; "Slice"; "USub"; "BoolOp"; "And"; "Or"; "Mult"; "IsNot"; "Is"; "Constant"].
(** constants.py 10-16 *)
Definition EXPORT := u "export".
(** constants.py 11-16 *)
Definition CONSTRUCT := u "construct".
(** constants.py 11-16 *)
Definition VALID_DECORATORS : list pystr := [EXPORT; CONSTRUCT].
(** constants.py 11-16 *)
Definition ORM_CLASS_NAMES : list pystr := map u ["Variable"; "Hash"; "ForeignVariable"; "ForeignHash"; "LogEvent"]%string.

(** Python's own names: dir(builtins), and sys.stdlib_module_names + sys.builtin_module_names.
    [py_ord]: the order in which Python iterates over the linter's sets. *)
Record pyenv : Type := mkPy { py_builtins : list pystr; py_modules : list pystr;
  py_ord : list (pystr * Z) -> list (pystr * Z); py_ord_types : list (option pystr * Z) -> list (option pystr * Z) }.
(** whitelists.py 9 *)
Definition illegal_builtin (P : pyenv) (s : pystr) : bool := (str_mem s (py_builtins P) && negb (str_mem s ALLOWED_BUILTINS))%bool.

(** A violation: line and index in VIOLATION_TRIGGERS; the rest of the text is left out *)
Record violation : Type := mkViol { vi_line : Z; vi_trigger : nat }.
(** linter.py 17-27; sets are lists without repetitions *)
Record lint : Type := mkLint { li_viol : list violation; li_functions : list pystr; li_export : bool; li_success : bool; li_ctor : bool;
  li_orm : list pystr; li_args : list (pystr * Z); li_returns : list (option pystr * Z); li_types : list (option pystr * Z) }.
(** linter.py 17-28 __init__: a new linter *)
Definition lint0 : lint := mkLint [] [] false true false [] [] [] [].
(** record update: an assignment to one attribute of the linter (linter.py 17-28) *)
Definition set_viol x s := mkLint x (li_functions s) (li_export s) (li_success s) (li_ctor s) (li_orm s) (li_args s) (li_returns s) (li_types s).
(** record update: an assignment to one attribute of the linter (linter.py 17-28) *)
Definition set_functions x s := mkLint (li_viol s) x (li_export s) (li_success s) (li_ctor s) (li_orm s) (li_args s) (li_returns s) (li_types s).
(** record update: an assignment to one attribute of the linter (linter.py 17-28) *)
Definition set_export x s := mkLint (li_viol s) (li_functions s) x (li_success s) (li_ctor s) (li_orm s) (li_args s) (li_returns s) (li_types s).
(** record update: an assignment to one attribute of the linter (linter.py 17-28) *)
Definition set_success x s := mkLint (li_viol s) (li_functions s) (li_export s) x (li_ctor s) (li_orm s) (li_args s) (li_returns s) (li_types s).
(** record update: an assignment to one attribute of the linter (linter.py 17-28) *)
Definition set_ctor x s := mkLint (li_viol s) (li_functions s) (li_export s) (li_success s) x (li_orm s) (li_args s) (li_returns s) (li_types s).
(** record update: an assignment to one attribute of the linter (linter.py 17-28) *)
Definition set_orm x s := mkLint (li_viol s) (li_functions s) (li_export s) (li_success s) (li_ctor s) x (li_args s) (li_returns s) (li_types s).
(** record update: an assignment to one attribute of the linter (linter.py 17-28) *)
Definition set_args x s := mkLint (li_viol s) (li_functions s) (li_export s) (li_success s) (li_ctor s) (li_orm s) x (li_returns s) (li_types s).
(** record update: an assignment to one attribute of the linter (linter.py 17-28) *)
Definition set_returns x s := mkLint (li_viol s) (li_functions s) (li_export s) (li_success s) (li_ctor s) (li_orm s) (li_args s) x (li_types s).
(** record update: an assignment to one attribute of the linter (linter.py 17-28) *)
Definition set_types x s := mkLint (li_viol s) (li_functions s) (li_export s) (li_success s) (li_ctor s) (li_orm s) (li_args s) (li_returns s) x.
(** set.add *)
Definition add_to {A} (eqb : A -> A -> bool) (x : A) (l : list A) : list A := if existsb (eqb x) l then l else l ++ [x].
(** Python: equality of tuples (name, line) *)
Definition arg_eqb (a b : pystr * Z) : bool := (str_eqb (fst a) (fst b) && Z.eqb (snd a) (snd b))%bool.
(** Python: equality of tuples (name, line) *)
Definition type_eqb (a b : option pystr * Z) : bool := (ostr_eqb (fst a) (fst b) && Z.eqb (snd a) (snd b))%bool.

(** self._violations.append("Line {}: ..."); self._is_success = False *)
Definition violate_at (z : Z) (i : nat) : st lint unit := modify (fun s => set_success false (set_viol (li_viol s ++ [mkViol z i]) s)).
(** ...with node.lineno, which may not exist *)
Definition violate (n : ast) (i : nat) : st lint unit := let! z := lift (lineno n) in violate_at z i.

Section Lint.
  Variable P : pyenv.
  (** linter.py 35-39 *)
  Definition not_system_variable (v : pystr) (n : ast) : st lint unit :=
    if (startswith v (u "_") || endswith v (u "_"))%bool then violate n 1 else ret tt.
  (** linter.py 41-46 *)
  Definition no_nested_imports (n : ast) : st lint unit :=
    let! body := lift (attrs "body" n) in
    foreach (fun i => if kind_in ["ImportFrom"; "Import"] i then violate n 2 else ret tt) body.
  (** linter.py 48-63 *)
  Definition pre_name (n : ast) : st lint unit :=
    let! id := lift (attr_id "id" n) in
    not_system_variable id n;;
    (if str_eqb id (u "rt") then violate n 13 else ret tt);;
    (if (illegal_builtin P id && negb (str_eqb id (u "float")))%bool then violate n 13 else ret tt).
  (** linter.py 65-72 *)
  Definition pre_attribute (n : ast) : st lint unit :=
    let! a := lift (attr_id "attr" n) in
    not_system_variable a n;;
    (if str_eqb a (u "rt") then violate n 13 else ret tt).
  (** linter.py 74-80 *)
  Definition pre_import (n : ast) : st lint unit :=
    let! names := lift (attrs "names" n) in
    foreach (fun a => let! m := lift (attr_id "name" a) in if str_mem m (py_modules P) then violate n 13 else ret tt) names.
  (** the condition of linter.py 113-115 (and compiler.py 98-100): a call of an ORM class by its name; AttributeError when
      the called expression is neither a name nor an attribute *)
  Definition orm_call (v : ast) : result (option pystr) :=
    if is_kind "Call" v then
      do f <- attr "func" v;
      if is_kind "Attribute" f then Ok None
      else do id <- attr_id "id" f; Ok (if str_mem id ORM_CLASS_NAMES then Some id else None)
    else Ok None.
  (** linter.py 105-133 *)
  Definition pre_assign (n : ast) : st lint unit :=
    let! v := lift (attr "value" n) in
    (if is_kind "Name" v then
       let! id := lift (attr_id "id" v) in
       if (str_eqb id (u "Hash") || str_eqb id (u "Variable") || str_eqb id (u "LogEvent"))%bool then violate n 13 else ret tt
     else ret tt);;
    let! o := lift (orm_call v) in
    match o with
    | None => ret tt
    | Some c =>
        (if (str_eqb c (u "Variable") || str_eqb c (u "Hash") || str_eqb c (u "LogEvent"))%bool then
           let! kws := lift (attrs "keywords" v) in
           let! names := mapm (fun k => lift (attr "arg" k)) kws in
           if existsb (fun a => match a with Ident s => (str_eqb s (u "contract") || str_eqb s (u "name"))%bool | _ => false end) names then violate n 10 else ret tt
         else ret tt);;
        let! targets := lift (attrs "targets" n) in
        (if (existsb (is_kind "Tuple") targets || is_kind "Tuple" v)%bool then violate n 11 else ret tt);;
        match targets with
        | [] => raise EIndex
        | t :: _ => match attr_id "id" t with
                    | Ok id => modify (fun s => set_orm (add_to str_eqb id (li_orm s)) s)
                    | Err EAttribute => ret tt
                    | Err e => raise e
                    end
        end
    end.
  (** linter.py 140-149 *)
  Definition pre_call (n : ast) : st lint unit :=
    let! f := lift (attr "func" n) in
    if is_kind "Name" f then
      let! id := lift (attr_id "id" f) in
      if illegal_builtin P id then violate n 13 else ret tt
    else ret tt.
  (** linter.py 170-178: the bare except hides a missing line number *)
  Definition no_closures (n : ast) : st lint unit := fun s =>
    match (let! body := lift (attrs "body" n) in foreach (fun i => if is_kind "FunctionDef" i then violate n 18 else ret tt) body) s with
    | (_, s') => (Ok tt, s')
    end.
  (** linter.py 187-205; the answer: is there an export decorator *)
  Definition decorator (n d : ast) : st lint bool :=
    let! id := lift (attr_id "id" d) in
    (if str_mem id VALID_DECORATORS then ret tt else violate n 7);;
    (if str_eqb id EXPORT then modify (set_export true) else ret tt);;
    (if str_eqb id CONSTRUCT then
       let! c := gets li_ctor in
       (if c then violate n 8 else ret tt);;
       modify (set_ctor true)
     else ret tt);;
    ret (str_eqb id EXPORT).
  (** linter.py 213-217, 223-227: the type of an annotation *)
  Definition annotation (a : ast) : result pystr :=
    do x <- attr "annotation" a;
    match attr_id "id" x with
    | Err EAttribute => do v <- attr "value" x; do p <- attr_id "id" v; do q <- attr_id "attr" x; Ok (p ++ u "." ++ q)
    | r => r
    end.
  (** linter.py 213-226: self.arg_types.add((type, line)) *)
  Definition add_type (t : option pystr) (z : Z) : st lint unit := modify (fun s => set_types (add_to type_eqb (t, z) (li_types s)) s).
  (** linter.py 209-219 *)
  Definition argument (n : ast) (exported : bool) (a : ast) : st lint unit :=
    let! name := lift (attr_id "arg" a) in
    let! z := lift (lineno n) in
    modify (fun s => set_args (add_to arg_eqb (name, z) (li_args s)) s);;
    if exported then
      let! an := lift (attr "annotation" a) in
      match an with
      | Absent => add_type None z
      | _ => let! t := lift (annotation a) in add_type (Some t) z
      end
    else ret tt.
  (** linter.py 167-232; a is the last argument in lines 221-229 *)
  Definition pre_function (n : ast) : st lint unit :=
    no_nested_imports n;;
    no_closures n;;
    let! ds := lift (attrs "decorator_list" n) in
    (if Nat.ltb 1 (List.length ds) then violate n 9 else ret tt);;
    let! flags := mapm (decorator n) ds in
    let exported := existsb (fun b => b) flags in
    let! arguments := lift (attr "args" n) in
    let! args := lift (attrs "args" arguments) in
    foreach (argument n exported) args;;
    if exported then
      let! r := lift (attr "returns" n) in
      match r with
      | Absent => let! z := lift (lineno n) in modify (fun s => set_returns (add_to type_eqb (None, z) (li_returns s)) s)
      | _ => match List.rev args with
             | [] => raise EUnboundLocal
             | a :: _ => let! t := lift (annotation a) in let! z := lift (lineno n) in add_type (Some t) z
             end
      end
    else ret tt.
  (** The visit_* methods, without the visit of the children.  Constants go to visit_Num or generic_visit (Python's
      visit_Constant), which do the same. *)
  Definition pre (n : ast) : st lint unit :=
    match n with
    | Node k _ _ =>
        if k =? "Name" then pre_name n
        else if k =? "Attribute" then pre_attribute n
        else if k =? "Import" then pre_import n
        else if k =? "ImportFrom" then violate n 3
        else if k =? "ClassDef" then violate n 5
        else if k =? "AsyncFunctionDef" then violate n 6
        else if k =? "Assign" then pre_assign n
        else if k =? "Call" then pre_call n
        else if k =? "FunctionDef" then pre_function n
        else ret tt
    | _ => ret tt
    end.
  (** linter.py 151-158 generic_visit, before the children *)
  Definition illegal_type (n : ast) : st lint unit := if kind_in ILLEGAL_AST_TYPES n then violate n 0 else ret tt.
  (** visit: visit_Import and visit_ImportFrom do not visit the children *)
  Fixpoint visit (n : ast) : st lint unit :=
    match n with
    | Node k ln fs =>
        pre n;;
        if kind_in ["Import"; "ImportFrom"] n then ret tt
        else illegal_type n;; (fix go fs := match fs with [] => ret tt | (_, v) :: r => visit v;; go r end) fs
    | Items l => (fix go l := match l with [] => ret tt | v :: r => visit v;; go r end) l
    | _ => ret tt
    end.
  (** linter.py 234-242 *)
  Definition annotation_types (t : option pystr) (z : Z) : st lint unit :=
    match t with
    | None => violate_at z 16
    | Some t => if str_mem t ALLOWED_ANNOTATION_TYPES then ret tt else violate_at z 15
    end.
  (** linter.py 244-248 *)
  Definition check_return_types (t : option pystr) (z : Z) : st lint unit := match t with Some _ => violate_at z 17 | None => ret tt end.
  (** linter.py 261-277 *)
  Definition final_checks : st lint unit :=
    let! s := gets (fun s => s) in
    foreach (fun a => if str_mem (fst a) (li_orm s) then violate_at (snd a) 14 else ret tt) (py_ord P (li_args s));;
    (if li_export s then ret tt else violate_at 0 12);;
    foreach (fun t => annotation_types (fst t) (snd t)) (py_ord_types P (li_types s));;
    foreach (fun t => check_return_types (fst t) (snd t)) (py_ord_types P (li_returns s)).
  (** linter.py 279-288: no other method reads the names collected.  n.name.split('.')[-1] *)
  Definition collect_function_defs (root : ast) : st lint unit :=
    foreach (fun n =>
      if is_kind "FunctionDef" n then let! x := lift (attr_id "name" n) in modify (fun s => set_functions (li_functions s ++ [x]) s)
      else if kind_in ["Import"; "ImportFrom"] n then
        let! names := lift (attrs "names" n) in
        foreach (fun a => let! x := lift (attr "asname" a) in
                          let! y := lift (attr_id "name" a) in
                          modify (fun s => set_functions (li_functions s ++ [match x with Ident x => x | _ => List.last (split_all (ch ".") y) [] end]) s)) names
      else ret tt) (walk root).
  (** sorted(..., key=line): stable *)
  Fixpoint insert_viol (v : violation) (l : list violation) : list violation :=
    match l with
    | [] => [v]
    | w :: r => if Z.ltb (vi_line v) (vi_line w) then v :: l else w :: insert_viol v r
    end.
  (** linter.py 295-296: sorted(violations, key=line) *)
  Definition sort_viol (l : list violation) : list violation := fold_left (fun acc v => insert_viol v acc) l [].
  (** linter.py 250-259 _reset: every attribute *)
  Definition reset (s : lint) : lint := lint0.
  (** linter.py 290-298 check: None when the tree is accepted *)
  Definition lint_check (t : ast) : st lint (option (list violation)) :=
    modify reset;;
    collect_function_defs t;;
    visit t;;
    final_checks;;
    let! s := gets (fun s => s) in
    ret (if li_success s then None else Some (sort_viol (li_viol s))).
End Lint.

(** * compilation/compiler.py, compilation/parser.py *)
From Verif Require Import Model.Base Model.State Model.Dec Model.Time Model.Value Model.Encoder Model.Hdf5 Model.Runtime Model.Ast Model.Linter.
Local Open Scope string_scope.
Local Open Scope list_scope.

(** compiler.py 9-16: the compiler's own state and that of its linter *)
Record comp : Type := mkComp { co_linter : lint; co_alerts : option (list violation); co_private : list pystr; co_orm : list pystr }.
(** compiler.py 9-16 __init__: a new compiler *)
Definition comp0 : comp := mkComp lint0 None [] [].
(** record update: an assignment to one attribute of the compiler (compiler.py 9-16) *)
Definition set_linter x s := mkComp x (co_alerts s) (co_private s) (co_orm s).
(** record update: an assignment to one attribute of the compiler (compiler.py 9-16) *)
Definition set_alerts x s := mkComp (co_linter s) x (co_private s) (co_orm s).
(** record update: an assignment to one attribute of the compiler (compiler.py 9-16) *)
Definition set_private x s := mkComp (co_linter s) (co_alerts s) x (co_orm s).
(** record update: an assignment to one attribute of the compiler (compiler.py 9-16) *)
Definition set_orms x s := mkComp (co_linter s) (co_alerts s) (co_private s) x.
(** compiler.py 51-53; constants.py 10 *)
Definition privatize (s : pystr) : pystr := u "__" ++ s.

(** node.f = v *)
Fixpoint set_field (f : string) (v : ast) (fs : list (string * ast)) : list (string * ast) :=
  match fs with
  | [] => []
  | (g, w) :: r => if String.eqb f g then (g, v) :: r else (g, w) :: set_field f v r
  end.
(** Python: n.f = v on a node (compiler.py 66-122) *)
Definition set_attr (f : string) (v : ast) (n : ast) : ast := match n with Node k ln fs => Node k ln (set_field f v fs) | _ => n end.
(** Nodes made by the compiler have no line number (ast.fix_missing_locations gives them one) *)
Definition str_const (s : pystr) : ast := Node "Constant" None [("value", Const (CStr s)); ("kind", Absent)].
(** ast.Call as the compiler builds it (compiler.py 81-85) *)
Definition call_node (f : ast) (args : list ast) : ast := Node "Call" None [("func", f); ("args", Items args); ("keywords", Items [])].
(** ast.keyword as the compiler builds it (compiler.py 102-103) *)
Definition keyword_node (a : pystr) (v : ast) : ast := Node "keyword" None [("arg", Ident a); ("value", v)].
(** node.value.keywords.append(...) *)
Definition append_keywords (kws : list ast) (call : ast) : ast :=
  match attr "keywords" call with Ok (Items l) => set_attr "keywords" (Items (l ++ kws)) call | _ => call end.

(** compiler.py 31-37: the Name nodes in self.visited_names are changed after the visit.  The result of a visit is the
    tree it will be then: a function of the renaming. *)
Definition late : Type := (pystr -> pystr) -> ast.
(** compiler.py 111-113 *)
Definition name_node (k : string) (ln : option Z) (fs : list (string * ast)) : late := fun r =>
  Node k ln (match field "id" fs with Some (Ident s) => set_field "id" (Ident (r s)) fs | _ => fs end).
Section Compile.
  Variable module_name : pystr.
  (** compiler.py 67-91: the new name of the function, and what is put in place of the popped decorator *)
  Definition head (n : ast) : st comp (ast * list late) :=
    let! ds := lift (attrs "decorator_list" n) in
    match rev ds with
    | [] =>
        let! name := lift (attr_id "name" n) in
        modify (fun s => set_private (add_to str_eqb name (co_private s)) s);;
        ret (Ident (privatize name), [])
    | d :: _ =>
        let! id := lift (attr_id "id" d) in
        let! name := lift (attr "name" n) in
        if str_eqb id CONSTRUCT then ret (Ident (u "____"), [])
        else if str_eqb id EXPORT then
          ret (name, [fun r => call_node (match set_attr "id" (Ident (u "__" ++ EXPORT)) d with Node k ln fs => name_node k ln fs r | x => x end) [str_const module_name]])
        else ret (name, [])
    end.
  (** compiler.py 97-104; the answer: the keywords to append *)
  Definition orm_keywords (n : ast) : st comp (list ast) :=
    let! v := lift (attr "value" n) in
    let! o := lift (orm_call v) in
    match o with
    | None => ret []
    | Some _ =>
        let! kws := lift (attrs "keywords" v) in
        let! targets := lift (attrs "targets" n) in
        match targets with
        | [] => raise EIndex
        | t :: _ =>
            let! id := lift (attr_id "id" t) in
            modify (fun s => set_orms (add_to str_eqb id (co_orm s)) s);;
            ret [keyword_node (u "contract") (str_const module_name); keyword_node (u "name") (str_const id)]
        end
    end.
  (** compiler.py 119-123 *)
  Definition number (n : ast) : ast :=
    match n with
    | Node _ _ fs => match field "value" fs with
                     | Some (Const (CFloat t)) => call_node (Node "Name" None [("id", Ident (u "decimal")); ("ctx", Node "Load" None [])]) [str_const t]
                     | _ => n
                     end
    | _ => n
    end.
  (** NodeTransformer.visit.  The nodes put in by visit_FunctionDef and visit_Assign are visited too: the decorator's name is then one
      of the visited names, and the rest is not changed by the visit. *)
  Fixpoint cvisit (n : ast) : st comp late :=
    match n with
    | Node k ln fs =>
        if k =? "Name" then ret (name_node k ln fs)
        else if k =? "Constant" then ret (fun _ => number n)
        else if k =? "FunctionDef" then
          let! (name, tail) := head n in
          let! fs' := (fix go fs := match fs with
                                    | [] => ret []
                                    | (f, v) :: r =>
                                        let! v' := (if f =? "name" then ret (fun _ => name)
                                                    else if f =? "decorator_list" then
                                                      match v with
                                                      | Items ds =>
                                                          let! ds' := (fix but_last ds := match ds with
                                                                        | [] => ret []
                                                                        | d :: r => match r with [] => ret [] | _ => let! d' := cvisit d in let! r' := but_last r in ret (d' :: r') end
                                                                        end) ds in
                                                          ret (fun rn => Items (map (fun x : late => x rn) (ds' ++ tail)))
                                                      | _ => ret (fun _ => v)
                                                      end
                                                    else cvisit v) in
                                        let! r' := go r in ret ((f, v') :: r')
                                    end) fs in
          ret (fun rn => Node k ln (map (fun fv : string * late => (fst fv, snd fv rn)) fs'))
        else
          let! kws := (if k =? "Assign" then orm_keywords n else ret []) in
          let! fs' := (fix go fs := match fs with
                                    | [] => ret []
                                    | (f, v) :: r =>
                                        let! v' := cvisit v in
                                        let! r' := go r in
                                        ret ((f, if (String.eqb f "value" && negb (Nat.eqb (List.length kws) 0))%bool then (fun rn => append_keywords kws (v' rn)) else v') :: r')
                                    end) fs in
          ret (fun rn => Node k ln (map (fun fv : string * late => (fst fv, snd fv rn)) fs'))
    | Items l =>
        let! l' := (fix go l := match l with [] => ret [] | v :: r => let! v' := cvisit v in let! r' := go r in ret (v' :: r') end) l in
        ret (fun rn => Items (map (fun x : late => x rn) l'))
    | _ => ret (fun _ => n)
    end.
  (** compiler.py 18-49 parse, of the tree of the source *)
  Definition parse (P : pyenv) (do_lint : bool) (t : ast) : st comp ast :=
    (if do_lint then fun s => match lint_check P t (co_linter s) with
                              | (Ok a, l) => (Ok tt, set_alerts a (set_linter l s))
                              | (Err e, l) => (Err e, set_linter l s)
                              end
     else ret tt);;
    let! tree := cvisit t in
    let! s := gets (fun s => s) in
    match co_alerts s with
    | Some _ => raise EException
    | None =>
        modify (fun s => set_private [] (set_orms [] s));;
        ret (tree (fun x => if (str_mem x (co_private s) || str_mem x (co_orm s))%bool then privatize x else x))
    end.
End Compile.

(** ** parser.py *)
Record argument_info : Type := mkArg { ar_name : ast; ar_type : pystr }.
(** parser.py 4-31: an entry {'name': ..., 'arguments': [...]} of the list *)
Record method : Type := mkMethod { me_name : pystr; me_args : list argument_info }.
(** parser.py 19-28 *)
Definition arg_info (a : ast) : result argument_info :=
  do t <- annotation a;
  do n <- attr "arg" a;
  Ok (mkArg n t).
(** parser.py 4-32 methods_for_contract, of the tree of the code *)
Definition methods_for_contract (t : ast) : result (list method) :=
  do l <- seqr (fun d =>
    do name <- attr_id "name" d;
    if startswith name (u "__") then Ok []
    else do args <- attr "args" d; do l <- attrs "args" args; do kw <- seqr arg_info l; Ok [mkMethod name kw])
    (filter (is_kind "FunctionDef") (walk t));
  Ok (List.concat l).
(** str.lstrip('__') *)
Fixpoint lstrip_ (s : pystr) : pystr := match s with c :: r => if N.eqb c (ch "_") then lstrip_ r else s | [] => [] end.
(** parser.py 34-59 variables_for_contract *)
Fixpoint assigns_before (l : list ast) : list ast :=
  match l with
  | [] => []
  | n :: r => if is_kind "FunctionDef" n then [] else if is_kind "Assign" n then n :: assigns_before r else assigns_before r
  end.
(** parser.py 34-59 variables_for_contract *)
Definition variables_for_contract (t : ast) : result (list pystr * list pystr) :=
  do l <- seqr (fun n =>
    do v <- attr "value" n;
    if is_kind "Call" v then
      do f <- attr "func" v;
      do id <- attr_id "id" f;
      if (str_eqb id (u "Variable") || str_eqb id (u "Hash"))%bool then
        do ts <- attrs "targets" n;
        match ts with
        | [] => Err EIndex
        | t :: _ => do x <- attr_id "id" t; Ok [(str_eqb id (u "Hash"), lstrip_ x)]
        end
      else Ok []
    else Ok []) (assigns_before (walk t));
  let l := List.concat l in
  Ok (map snd (filter (fun p => negb (fst p)) l), map snd (filter fst l)).

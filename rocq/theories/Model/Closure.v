(** * client.py 273-334: contracts given as Python functions

    inspect, autopep8, ast.parse and astor are parameters: [function_given t] is a function for which ast.parse(autopep8.fix_code(inspect.getsource(f)))
    gives [t] (or raises); [astor_source] is astor.to_source, [ast_parse] is ast.parse. *)
From Verif Require Import Model.Base Model.State Model.Dec Model.Time Model.Value Model.Encoder Model.Hdf5 Model.Runtime Model.Driver Model.Orm Model.Exec Model.Executor Model.Client Model.ClientSubmit.
From Verif Require Import Model.Ast Model.Linter Model.Compiler Model.ClientLint.
Local Open Scope string_scope.
Local Open Scope list_scope.

(** The argument f of submit, lint and compile (client.py 291, 307, 317) *)
Inductive code_given : Type := text_given (x : pystr) | function_given (t : result ast).
(** Python: closure_tree.body = v *)
Definition swap_body (v : ast) (t : ast) : ast :=
  match t with Node k l fs => Node k l (map (fun fv => if String.eqb (fst fv) "body" then (fst fv, v) else fv) fs) | _ => t end.
Section Tools.
  Variable astor_source : ast -> result pystr.
  Variable ast_parse : pystr -> result ast.
  (** client.py 273-288 closure_to_code_string *)
  Definition closure_to_code_string (source : result ast) : result (pystr * pystr) :=
    do t <- source;
    do b <- attrs "body" t;
    match b with
    | [d] => if is_kind "FunctionDef" d
             then do v <- attr "body" d; do x <- astor_source (swap_body v t); do n <- attr_id "name" d; Ok (x, n)
             else Err EAssertion
    | _ => Err EAssertion
    end.
  (** client.py 291-292, 307-308: the text *)
  Definition as_source (f : code_given) : result pystr :=
    match f with text_given x => Ok x | function_given t => mapr fst (closure_to_code_string t) end.
  (** client.py 290-304 lint *)
  Definition lint_given (P : pyenv) (raise_errors : bool) (f : code_given) : st comp (option (list violation)) :=
    match (do x <- as_source f; ast_parse x) with Ok t => client_lint P raise_errors t | Err e => raise e end.
  (** client.py 306-311 compile (ast.parse is compiler.py 19) *)
  Definition compile_given (P : pyenv) (f : code_given) : st comp ast :=
    match (do x <- as_source f; ast_parse x) with Ok t => client_compile P t | Err e => raise e end.
  (** client.py 313-334 submit *)
  Definition submit_given (L : lang) (fuel : nat) (present : bool) (clock : pyval) (f : code_given) (name : option pystr) (metering : option bool) (owner : pyval)
    (args : dict pyval) (signer : option pystr) : st client pyval :=
    if negb present then raise EAssertion
    else match f with
         | text_given x => client_submit L fuel present clock x name metering owner args signer
         | function_given t =>
             match closure_to_code_string t with
             | Err e => raise e
             | Ok (x, n) => client_submit L fuel present clock x (match name with Some m => Some m | None => Some n end) metering owner args signer
             end
         end.
End Tools.

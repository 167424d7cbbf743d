(** * client.py 290-311: lint and compile *)
From Verif Require Import Model.Base Model.State Model.Ast Model.Linter Model.Compiler.

(** client.py 290-304 lint, of the tree of the source; the linter is that of the client's compiler.  [raise_errors]: the first violation is raised. *)
Definition client_lint (P : pyenv) (raise_errors : bool) (t : ast) : st comp (option (list violation)) := fun s =>
  match lint_check P t (co_linter s) with
  | (Err e, l) => (Err e, set_linter l s)
  | (Ok None, l) => (Ok None, set_linter l s)
  | (Ok (Some vs), l) => (if raise_errors then match vs with [] => Ok None | _ :: _ => Err EException end else Ok (Some vs), set_linter l s)
  end.
(** client.py 306-311 compile; compiler.py 55-63 parse_to_code, without the code generator: the tree.  The client's compiler has the module name '__main__' (compiler.py 10). *)
Definition client_compile (P : pyenv) (t : ast) : st comp ast := parse (u "__main__") P true t.

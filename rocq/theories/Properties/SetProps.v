(** * C50: what the linter lets through that is no function of the readable state

    The theorems about execution quantify over behaviours of contract code, which are functions of the answers it gets.  Python's iteration over a set of
    texts follows hashes seeded per process (PYTHONHASHSEED), and str of a function shows its address: code with these is no such behaviour. *)
From Verif Require Import Model.Base Model.State Model.Ast Model.Linter Model.Compiler.
From Verif Require Import Spec.LintSpec Proofs.BaseFacts Properties.LintProps Properties.CompProps.
Local Open Scope string_scope.
Local Open Scope list_scope.

Definition text_at (z : Z) (x : string) : ast := Node "Constant" (Some z) [("value", Const (CStr (u x))); ("kind", Absent)].
(** list({'a', 'b'}) *)
Definition list_of_set : ast := call_at 3 (name_at 3 "list") [Node "Set" (Some 3%Z) [("elts", Items [text_at 3 "a"; text_at 3 "b"])]] [].
(** str(f) *)
Definition str_of_function : ast := call_at 6 (name_at 6 "str") [name_at 6 "f"] [].
(** @export def f(): return list({'a', 'b'}) / @export def g(): return str(f) *)
Definition seeded : ast := module [def_at 2 "f" none_args [Node "Return" (Some 3%Z) [("value", list_of_set)]] (export_at 1) Absent;
  def_at 5 "g" none_args [Node "Return" (Some 6%Z) [("value", str_of_function)]] (export_at 4) Absent].
Definition seeded' : ast := match fst (parse (u "con_x") python true seeded comp0) with Ok t => t | Err _ => Absent end.
(** Both are accepted and compiled as they are *)
Theorem C50_language_refuted : accepted python seeded /\ fst (parse (u "con_x") python true seeded comp0) = Ok seeded' /\ In list_of_set (nodes seeded') /\ In str_of_function (nodes seeded').
Proof.
  split; [apply (fine_ok seeded); vm_compute; reflexivity|]. split; [vm_compute; reflexivity|]. split; vm_compute; auto 60.
Qed.

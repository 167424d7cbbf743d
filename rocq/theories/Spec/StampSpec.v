(** * What the property about the stamp limit talks about *)
From Verif Require Import Model.Base Model.State Model.Value Model.Encoder Model.Hdf5 Model.Runtime Model.Driver Model.Orm Model.Exec Model.Executor.
Local Open Scope Z_scope.

(** The same transaction with another stamp limit *)
Definition with_stamps (n : Z) (t : txn) : txn :=
  mkTx (t_sender t) (t_contract t) (t_function t) (t_kwargs t) (t_env t) (t_auto t) n (t_rate t) (t_meter t).
(** The check of the sender's balance before anything is run lets the transaction in *)
Definition let_in (g : cfg) (t : txn) (s : mach) : Prop := fst (admission g t s) = Ok tt.
(** What runs inside crypto.verify and crypto.key_is_valid is library code, not contract code *)
Definition lib_guard (p : prog) : Prop := match p with PGuard ls _ _ => Forall (fun e => le_contract e = false) ls | _ => True end.

(** * What the property about dry runs talks about *)
From Verif Require Import Model.Base Model.State Model.Value Model.Encoder Model.Hdf5 Model.Runtime Model.Driver Model.Orm Model.Exec Model.Executor.
From Verif Require Import Spec.ExecSpec.

(** Nothing is pending, cached or recorded: a new driver, or one after commit, flush_cache or rollback *)
Definition all_committed (s : mach) : Prop := dv_writes (s_drv s) = [] /\ dv_cache (s_drv s) = [] /\ dv_reads (s_drv s) = [].
(** No transaction is running and no contract is loaded *)
Record resting (s : mach) : Prop := mkResting { re_idle : idle s; re_mods : s_mods s = []; re_stack : cx_stack (s_ctx s) = [] }.
(** Transactions without auto-commit that return, whatever they answer *)
Inductive dry_runs (L : lang) (fuel : nat) (ok : txn -> mach -> Prop) : mach -> mach -> Prop :=
| dry_none s : dry_runs L fuel ok s s
| dry_step g t s out s1 s' : t_auto t = false -> ok t s -> execute L fuel g t s = (Ok out, s1) -> dry_runs L fuel ok s1 s' -> dry_runs L fuel ok s s'.
(** driver.rollback() *)
Definition rolled_back (s : mach) : mach := snd (on_w (on_drv (rollback None)) s).

(** * client.py: several clients in one process

    Everything but the driver, the settings and the signer is shared: the runtime and its context (runtime.py 145), sys.modules, and, for the
    clients that were made without an environment, the default argument environment={} (client.py 197), which is one dict for all of them. *)
From Verif Require Import Model.Base Model.State Model.Value Model.Encoder Model.Hdf5 Model.Runtime Model.Driver Model.Orm Model.Exec Model.Executor Model.Client.

(** client.py 189-216: what a client has of its own; [se_env]: the environment it was given, if any *)
Record seat : Type := mkSeat { se_drv : driver; se_cfg : cfg; se_signer : pystr; se_env : option (dict pyval) }.
(** the process: its machine (the driver in it is that of the last execution), the default environment, and its clients *)
Record process : Type := mkProc { pr_mach : mach; pr_default : dict pyval; pr_seat : nat -> seat }.
(** executor.py 61-66: the executor's driver becomes the driver in use *)
Definition with_driver (v : driver) (s : mach) : mach := upd_d (fun _ => v) s.
(** client [i] with what it uses of the process (client.py 199-205) *)
Definition as_client (p : process) (i : nat) : client :=
  let e := pr_seat p i in
  mkClient (with_driver (se_drv e) (pr_mach p)) (se_cfg e) (match se_env e with Some x => x | None => pr_default p end) (se_signer e).
(** what a call through client [i] leaves behind *)
Definition after_call (i : nat) (c : client) (p : process) : process :=
  let own := se_env (pr_seat p i) in
  mkProc (k_mach c) (match own with Some _ => pr_default p | None => k_env c end)
    (fun j => if Nat.eqb j i then mkSeat (s_drv (k_mach c)) (k_cfg c) (k_signer c) (match own with Some _ => Some (k_env c) | None => None end) else pr_seat p j).
(** client.py 146-185 _abstract_function_call through client [i] *)
Definition call_as (L : lang) (fuel : nat) (i : nat) (clock : pyval) (signer contract func : pystr) (kw : dict pyval) (env : option (dict pyval)) (meter : option bool) (now : option pyval)
    : st process pyval := fun p =>
  let (r, c) := call_contract L fuel clock signer contract func kw env meter now (as_client p i) in (r, after_call i c p).

(** * What the properties of contract submission talk about *)
From Verif Require Import Model.Base Model.State Model.Value Model.Encoder Model.Hdf5 Model.Runtime Model.Driver Model.Orm Model.Exec Model.Executor.
From Verif Require Import Spec.DriverSpec Spec.ExecSpec.

(** The entries that make a contract: code, compiled code, owner, submission time, developer *)
Definition contract_entries (c : pystr) : list pystr :=
  [c ++ u ".__code__"; c ++ u ".__compiled__"; c ++ u ".__owner__"; c ++ u ".__submitted__"; c ++ u ".__developer__"].

(** An action other than a submission writes no key of [K] *)
Definition leaves (L : lang) (K : list pystr) (a : action) : Prop :=
  match a with
  | ActVarSet x _ => ~ In (v_key x) K
  | ActHashSet h k _ => forall s, validate_key (l_ostr L) k = Ok s -> ~ In (h_key h ++ u ":" ++ s) K
  | ActHashClear h _ => forall k, startswith k (h_key h ++ u ":") = true -> ~ In k K
  | ActSetVar c n _ => ~ In (make_key c n []) K
  | _ => True
  end.
Definition code_leaves (L : lang) (K : list pystr) (p : prog) : Prop := match p with PAct a _ => leaves L K a | _ => True end.

(** No pending write goes to the place of a key of [K], except under that key *)
Definition unaliased (K : list pystr) (v : driver) : Prop :=
  forall k k', In k K -> In k' (dkeys (dv_writes v)) -> same_place k k' = true -> k' = k.
(** Histories: transactions without auto-commit, whatever they answer, and successful commits of pending writes that are not aliased *)
Inductive tx_history (L : lang) (fuel : nat) (g : cfg) (ok : txn -> Prop) (K : list pystr) (s : mach) : mach -> Prop :=
| hi_start : tx_history L fuel g ok K s s
| hi_tx s1 t r s2 : tx_history L fuel g ok K s s1 -> ok t -> t_auto t = false -> execute L fuel g t s1 = (r, s2) -> tx_history L fuel g ok K s s2
| hi_commit s1 s2 : tx_history L fuel g ok K s s1 -> unaliased K (s_drv s1) -> on_w (on_drv commit) s1 = (Ok tt, s2) -> tx_history L fuel g ok K s s2.

(** The caller a function of contract [c] sees when it is called now: the running contract, or, when that is [c] itself, its caller *)
Definition caller_in (s : mach) (c : pystr) : option pystr :=
  let cs := get_state (s_ctx s) in if ostr_eqb (c_this cs) (Some c) then c_caller cs else c_this cs.
Definition signer_of (s : mach) : option pystr := c_signer (get_state (s_ctx s)).
(** The submission contract as it is in /repo is loaded *)
Definition submission_loaded (L : lang) (s : mach) : Prop := dget SUBMISSION (s_mods s) = Some (Some (submission_modul L)).
(** Nothing that contracts can read has changed: the pending writes, the cache and the disk are the same *)
Definition same_state (s s' : mach) : Prop :=
  dv_writes (s_drv s') = dv_writes (s_drv s) /\ dv_cache (s_drv s') = dv_cache (s_drv s) /\ dv_disk (s_drv s') = dv_disk (s_drv s).

(** ** Committing submissions *)
(** The five entries of a contract of this name can be committed *)
Definition storable_name (n : pystr) : Prop := forall k, In k (contract_entries n) -> key_writable k.
(** Code whose own writes (other than submissions and developer changes) go to keys that can be committed *)
Definition code_storable (L : lang) (p : prog) : Prop :=
  match p with
  | PAct (ActVarSet x _) _ => key_writable (v_key x)
  | PAct (ActHashSet h k _) _ => forall s, validate_key (l_ostr L) k = Ok s -> key_writable (h_key h ++ u ":" ++ s)
  | PAct (ActHashClear h _) _ => forall k, startswith k (h_key h ++ u ":") = true -> key_writable k
  | _ => True
  end.
(** The names of the contracts submitted (or given a new developer) can be committed *)
Definition names_storable (l : list obs) : Prop :=
  Forall (fun o => match o with OAct _ (ActSetContract n _ _ _ _) => storable_name n | OAct _ (ActSetVar c n _) => key_writable (make_key c n []) | _ => True end) l.

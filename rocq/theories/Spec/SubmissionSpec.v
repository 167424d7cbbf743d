(** * What the properties of a whole submission talk about *)
From Verif Require Import Model.Base Model.State Model.Value Model.Encoder Model.Hdf5 Model.Runtime Model.Driver Model.Orm Model.Exec Model.Executor.
From Verif Require Import Spec.DriverSpec Spec.ExecSpec Spec.SubmitSpec.

(** The stored submission contract is the one of /repo *)
Definition submission_stored (L : lang) (s : mach) : Prop := fst (fetch L SUBMISSION s) = Ok (submission_modul L).
(** The step recorded in a transaction's log may write the key *)
Definition touches (L : lang) (k : pystr) (o : obs) : Prop :=
  match o with
  | OAct _ (ActVarSet x _) => v_key x = k
  | OAct _ (ActHashSet h i _) => exists t, validate_key (l_ostr L) i = Ok t /\ h_key h ++ u ":" ++ t = k
  | OAct _ (ActHashClear h _) => startswith k (h_key h ++ u ":") = true
  | OAct _ (ActSetVar c n _) => make_key c n [] = k
  | OAct _ (ActSetContract n _ _ _ _) => In k (contract_entries n)
  | _ => False
  end.
(** One step of the transaction at most may have written the key *)
Definition written_once (L : lang) (k : pystr) (l : list obs) : Prop :=
  forall l1 o l2 o', l = l1 ++ o :: l2 -> touches L k o -> In o' (l1 ++ l2) -> ~ touches L k o'.
(** The behaviour of code ends with a value satisfying Q, if it ends *)
Fixpoint ends_in (Q : pyval -> Prop) (p : prog) : Prop :=
  match p with
  | PRet v => Q v
  | PRaise _ => True
  | PLine _ k | PImport _ _ k => ends_in Q k
  | PAct _ k | PEnv _ k | PCall _ _ _ k | PApply _ _ k | PGuard _ _ k | PExec _ _ _ k => forall v, ends_in Q (k v)
  | PCtx k => forall cs, ends_in Q (k cs)
  end.
(** The top level of the submitted code assigns nothing to the global 'now' *)
Definition leaves_now (L : lang) (name code : pystr) : Prop :=
  forall text blob md, l_compile L name code = Ok text -> l_marshal L text = Ok blob -> l_interp L blob = Ok md -> ends_in (fun v => v = VNone) (m_init md).
(** What is pending under a key is the stored form of the value, and it reads as that unless it is None (a deletion) *)
Definition holds (s : mach) (k : pystr) (x : pyval) : Prop :=
  exists y, coerce x = Ok y /\ dget k (dv_writes (s_drv s)) = Some y /\ (y <> VNone -> reads_as s k = Ok y).
(** The time of the transaction: what the environment has under 'now', or, without one, the time the library was imported *)
Definition time_given (L : lang) (t : txn) (s : mach) : pyval :=
  let n := pget (u "now") (dupdate (rt_env (s_rt s)) (t_env t)) in if is_none n then l_boot L else n.
(** The entries of the contract are those of this submission *)
Definition as_submitted (L : lang) (t : txn) (s s' : mach) (name text : pystr) (blob : list N) : Prop :=
  holds s' (name ++ u ".__code__") (VStr text) /\ holds s' (name ++ u ".__compiled__") (VBytes blob) /\
  holds s' (name ++ u ".__owner__") (pget (u "owner") (t_kwargs t)) /\ holds s' (name ++ u ".__submitted__") (time_given L t s) /\
  holds s' (name ++ u ".__developer__") (VStr (t_sender t)).

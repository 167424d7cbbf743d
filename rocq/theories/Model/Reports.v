(** * What happens to a report after execute returned it, and to the arguments execute was given

    executor.py 186-193: output['writes'] and output['events'] are copies (129-130), but output['reads'] is the driver's own dict pending_reads.
    Here that dict has an identity: a number that grows when the driver takes a new one. *)
From Verif Require Import Model.Base Model.State Model.Dec Model.Time Model.Value Model.Encoder Model.Hdf5 Model.Runtime Model.Driver Model.Orm Model.Exec Model.Executor.

(** the machine, and the dicts that were once driver.pending_reads and are no more (driver.py 380), oldest first *)
Record session : Type := mkSess { ss_mach : mach; ss_gone : list (dict pyval) }.
(** the number of the dict that is driver.pending_reads now *)
Definition current (ss : session) : nat := List.length (ss_gone ss).
(** the content of dict number [i] *)
Definition reads_object (ss : session) (i : nat) : dict pyval :=
  match nth_error (ss_gone ss) i with Some d => d | None => dv_reads (s_drv (ss_mach ss)) end.
(** executor.py 186-193: a report; [rp_reads]: which dict its 'reads' is *)
Record report : Type := mkRep { rp_output : output; rp_reads : nat }.
(** what its owner sees in report['reads'] now *)
Definition seen_reads (ss : session) (rp : report) : dict pyval := reads_object ss (rp_reads rp).
(** record update (no code) *)
Definition on_mach (s : mach) (ss : session) : session := mkSess s (ss_gone ss).

(** What users of executor and driver do *)
Inductive use : Type :=
| UExecute (g : cfg) (t : txn) | UGet (k : pystr) | USet (k : pystr) (v : pyval)
| UCommit | URollback | URollbackTo (nanos : Z) | UHardApply (nanos : Z) | UFlushCache.
(** driver.py 77-89, 91-99, 292-298, 326-346, 348-362 and executor.py 43-196 change the dict in place; hard_apply (driver.py 380) takes a new one *)
Definition use_step (L : lang) (fuel : nat) (x : use) (ss : session) : session :=
  let s := ss_mach ss in
  match x with
  | UExecute g t => on_mach (snd (execute L fuel g t s)) ss
  | UGet k => on_mach (snd (on_w (on_drv (get k)) s)) ss
  | USet k v => on_mach (snd (on_w (set k v false) s)) ss
  | UCommit => on_mach (snd (on_w (on_drv commit) s)) ss
  | URollback => on_mach (snd (on_w (on_drv (rollback None)) s)) ss
  | URollbackTo n => on_mach (snd (on_w (on_drv (rollback (Some n))) s)) ss
  | UHardApply n => mkSess (snd (on_w (on_drv (hard_apply n)) s)) (ss_gone ss ++ [dv_reads (s_drv s)])
  | UFlushCache => on_mach (upd_d flush_cache s) ss
  end.
(** several of them (no code) *)
Definition use_all (L : lang) (fuel : nat) (l : list use) (ss : session) : session := fold_left (fun ss x => use_step L fuel x ss) l ss.
(** the report of an execution that returned (executor.py 186-196) *)
Definition reported (L : lang) (fuel : nat) (g : cfg) (t : txn) (ss : session) : option report :=
  match fst (execute L fuel g t (ss_mach ss)) with Ok out => Some (mkRep out (current ss)) | Err _ => None end.

(** executor.py 122-124: the loop that converts floats changes the caller's kwargs dict, one after the other *)
Fixpoint convert_floats (kw : dict pyval) : result unit * dict pyval :=
  match kw with
  | [] => (Ok tt, [])
  | (k, v) :: r =>
      let new := match v with VFloat x => mapr VDec (cd_of_str x) | _ => Ok v end in
      match new with
      | Err e => (Err e, kw)
      | Ok y => let (x, r') := convert_floats r in (x, (k, y) :: r')
      end
  end.
(** executor.py 70-124: the caller's kwargs dict after execute: the loop is reached if the sender is admitted, the context set and the function found *)
Definition kwargs_after (L : lang) (fuel : nat) (g : cfg) (t : txn) (s : mach) : dict pyval :=
  if refused g t then t_kwargs t
  else
    let before := (admission g t;; modify (upd_r (fun r => set_env (dupdate (rt_env r) (t_env t)) r));; base_context t;; find_function L fuel t;; submission_name t) in
    match before (upd_d (fun v => clear_events (clear_transaction_writes v)) (fresh_log s)) with
    | (Ok _, _) => snd (convert_floats (t_kwargs t))
    | (Err _, _) => t_kwargs t
    end.

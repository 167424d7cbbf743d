(** * execution/executor.py *)
From Verif Require Import Model.Base Model.State Model.Dec Model.Time Model.Value Model.Encoder Model.Hdf5 Model.Runtime Model.Driver Model.Orm Model.Exec.

(** executor.py 14-37 __init__ *)
Record cfg : Type := mkCfg { g_metering : bool; g_currency : pystr; g_balances : pystr; g_bypass_privates : bool; g_bypass_balance : bool }.
(** The arguments of execute (executor.py 42-48).  stamps and stamp_cost are ints.
    [t_meter] is None when not given. *)
Record txn : Type := mkTx {
  t_sender : pystr; t_contract : pystr; t_function : pystr; t_kwargs : dict pyval; t_env : dict pyval;
  t_auto : bool; t_stamps : Z; t_rate : Z; t_meter : option bool }.
(** executor.py 186-193: the dict execute returns *)
Record output : Type := mkOut {
  o_status : Z; o_result : result pyval; o_stamps : Z; o_writes : dict pyval; o_reads : dict pyval; o_events : list event }.
(** executor.py 58-59: metering given, or else the executor's own *)
Definition metered (g : cfg) (t : txn) : bool := match t_meter t with Some b => b | None => g_metering g end.
(** executor.py 74-78: f'{currency}.{balances}:{sender}' *)
Definition balance_key (g : cfg) (t : txn) : pystr := g_currency g ++ u "." ++ g_balances g ++ u ":" ++ t_sender t.
(** executor.py 84-90: the balance as a number *)
Definition balance_value (v : pyval) : result pyval :=
  match v with
  | VNone => Ok (VInt 0)
  | VDict d => do x <- cd_of_val (match List.find (fun kv => match fst kv with KStr k => str_eqb k (u "__fixed__") | _ => false end) d with
                                 | Some kv => snd kv | None => VNone end); Ok (VDec x)
  | _ => Ok v
  end.
(** executor.py 92: balance * stamp_cost >= stamps.  Values that are not numbers raise TypeError (a float or raw
    Decimal balance cannot be stored: driver.py 95-96 makes it a ContractingDecimal). *)
Definition enough (bal : pyval) (rate stamps : Z) : result bool :=
  match bal with
  | VInt z => Ok (Z.leb stamps (z * rate))
  | VBool b => Ok (Z.leb stamps (Z.b2z b * rate))
  | VDec d => do x <- cd_op_int cd_mul d rate; cd_cmp_int cd_ge x stamps
  | _ => Err EType
  end.
(** executor.py 170-174: balance - to_deduct, for a number *)
Definition minus_fee (bal : pyval) (fee : fd) : result pyval :=
  match bal with
  | VNone => do x <- cd_rop_int cd_sub 0 fee; Ok (VDec x)
  | VInt z => do x <- cd_rop_int cd_sub z fee; Ok (VDec x)
  | VBool b => do z <- get_other_bool b; do x <- cd_sub z fee; Ok (VDec x)
  | VDec d => do x <- cd_sub d fee; Ok (VDec x)
  | _ => Err EType
  end.
(** max(x, 0) *)
Definition max0 (v : pyval) : pyval :=
  match v with VDec d => if fd_ltb d (mkfd false 0 0) then VInt 0 else v | _ => v end.
(** executor.py 122-124 *)
Definition float_args (kw : dict pyval) : result (dict pyval) :=
  seqr (fun kv => match snd kv with
                  | VFloat r => do d <- cd_of_str r; Ok (fst kv, VDec d)
                  | v => Ok (fst kv, v)
                  end) kw.
(** acting on a part of the machine (no code) *)
Definition upd_w (f : world -> world) (s : mach) : mach := set_w (f (s_w s)) s.
(** acting on a part of the machine (no code) *)
Definition upd_d (f : driver -> driver) (s : mach) : mach := upd_w (upd_drv f) s.
(** acting on a part of the machine (no code) *)
Definition upd_r (f : runtime -> runtime) (s : mach) : mach := upd_w (upd_rt f) s.

Section Execute.
  Variables (L : lang) (fuel : nat) (g : cfg) (t : txn).
  (** executor.py 73-93: the admission check *)
  Definition admission : st mach unit :=
    if metered g t then
      let! bal := (if g_bypass_balance g then ret (VInt 9999999)
                   else let! b := on_w (on_drv (get (balance_key g t))) in lift (balance_value b)) in
      let! b := lift (enough bal (t_rate t) (t_stamps t)) in check b
    else ret tt.
  (** executor.py 101-111: the base state of the context; the owner check looks at the current state *)
  Definition base_context : st mach unit :=
    let! owner := on_w (on_drv (get_owner (t_contract t))) in
    modify (upd_ctx (fun c => mkCtx (cx_stack c)
      (mkCs (Some (t_contract t)) (Some (t_sender t)) (Some (t_sender t)) owner (Some (t_contract t, t_function t)) VNone)));;
    let! cs := gets (fun s => get_state (s_ctx s)) in
    if (is_none (c_owner cs) || is_owner (c_owner cs) (c_caller cs))%bool then ret tt else raise EException.
  (** executor.py 115-116: import_module (not restricted, tracer off), getattr.  The function found is the one
      [call] finds again below: nothing in between touches the module. *)
  Definition find_function : st mach unit :=
    plain_import L (deeper L fuel) Lib [] (t_contract t);;
    let! found := gets (fun s => dget (t_contract t) (s_mods s)) in
    let md := match found with
              | Some md => md
              | None => l_host L (t_contract t)
              end in
    match md with
    | Some md => match dget (t_function t) (m_funcs md) with Some _ => ret tt | None => raise EAttribute end
    | None => raise EAttribute
    end.
  (** executor.py 118-120 *)
  Definition submission_name : st mach unit :=
    if str_eqb (t_contract t) SUBMISSION then
      modify (upd_ctx (fun c => mkCtx (cx_stack c) (let b := cx_base c in
        mkCs (c_this b) (c_caller b) (c_signer b) (c_owner b) (c_entry b) (pget (u "name") (t_kwargs t)))))
    else ret tt.
  (** executor.py 126-135: the call, and what is reported of it *)
  Definition call_entry (kw : dict pyval) : st mach (pyval * dict pyval * list event) :=
    modify (set_restricted true);;
    modify (upd_r (set_up (t_stamps t * 1000) (metered g t)));;
    let! r := call L (deeper L fuel) [] (t_contract t) (t_function t) kw in
    let! v := gets s_drv in
    modify (upd_r (fun r => set_tracer (tr_stop (rt_tracer r)) r));;
    modify (set_restricted false);;
    (if t_auto t then on_w (on_drv commit) else ret tt);;
    ret (r, dv_txn v, dv_events v).
  (** executor.py 72-135: the try block *)
  Definition attempt : st mach (pyval * dict pyval * list event) :=
    admission;;
    modify (upd_r (fun r => set_env (dupdate (rt_env r) (t_env t)) r));;
    base_context;;
    find_function;;
    submission_name;;
    let! kw := lift (float_args (t_kwargs t)) in
    call_entry kw.
  (** executor.py 137-145: except Exception *)
  Definition revert (saved : dict pyval) (s : mach) : mach :=
    upd_d (fun v => let v := set_writes saved v in if t_auto t then flush_cache v else v) s.
  (** executor.py 147-150: finally *)
  Definition finally (s : mach) : mach :=
    upd_r (fun r => set_tracer (tr_stop (rt_tracer r)) r) (upd_d (fun v => clear_transaction_writes (clear_events v)) s).
  (** executor.py 155-161 *)
  Definition stamps_used (s : mach) : Z :=
    let n := (tr_cost (rt_tracer (s_rt s)) / 1000 + 5)%Z in if Z.ltb (t_stamps t) n then t_stamps t else n.
  (** executor.py 163-180: the fee; division by zero when the rate is 0 *)
  Definition charge_fee (used : Z) (writes : dict pyval) : st mach (dict pyval) :=
    if metered g t then
      let! fee := lift (if Z.eqb (t_rate t) 0 then Err EDivisionByZero else cd_of_float (l_fdiv L used (t_rate t))) in
      let! bal := on_w (on_drv (get (balance_key g t))) in
      let! x := lift (minus_fee bal fee) in
      on_w (set (balance_key g t) (max0 x) false);;
      (if t_auto t then on_w (on_drv commit) else ret tt);;
      ret (dset (balance_key g t) (max0 x) writes)
    else ret writes.
  (** executor.py 182-184, 195, runtime.py 111-125: Seeded.s = False; clean_up; module objects disappear *)
  Definition wind_up (s : mach) : mach :=
    let gone := rt_loaded (s_rt s) in
    set_restricted false (set_mods (filter (fun kv => negb (str_mem (fst kv) gone)) (s_mods s))
      (upd_r (fun r => clean_up (set_seeded None r)) s)).
  (** executor.py 70-196 on the driver in use; [saved]: the pending writes restored on failure *)
  Definition transact (saved : dict pyval) : st mach output := fun s =>
    match attempt s with
    | (Err EBase, s) => (Err EBase, finally s)
    | (r, s) =>
        let '(status, res, writes, events) := match r with
          | Ok (v, w, e) => (0%Z, Ok v, w, e)
          | Err e => (1%Z, Err e, [], [])
          end in
        let s := finally (match r with Ok _ => s | Err _ => revert saved s end) in
        let used := stamps_used s in
        match charge_fee used writes s with
        | (Err e, s) => (Err e, s)
        | (Ok writes, s) => (Ok (mkOut status res used writes (dv_reads (s_drv s)) events), wind_up s)
        end
    end.
  (** executor.py 51-57 *)
  Definition refused : bool := (negb (g_bypass_privates g) && startswith (t_function t) (u "__"))%bool.
  (** the ghost log starts anew (no code) *)
  Definition fresh_log (s : mach) : mach := set_hosts [] (set_log [] s).
  (** execute with the executor's own driver *)
  Definition execute : st mach output := fun s =>
    let s := fresh_log s in
    let saved := dv_writes (s_drv s) in
    let s := upd_d (fun v => clear_events (clear_transaction_writes v)) s in
    if refused then (Err EAssertion, s) else transact saved s.
  (** execute with an explicit driver argument: the executor's own driver is [self] *)
  Definition execute_on (self : driver) (s : mach) : result output * mach * driver :=
    let s := fresh_log s in
    let saved := dv_writes self in
    let self := clear_events (clear_transaction_writes self) in
    if refused then (Err EAssertion, s, self) else (transact saved s, self).
End Execute.

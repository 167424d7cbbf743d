(** * execution/runtime.py and execution/tracer.py *)
From Verif Require Import Model.Base Model.State Model.Value.

(** ** Context (runtime.py 10-70) *)
(** One frame.  [this], [caller], [signer] are names; [owner] and [submission_name] can be any
    stored or passed value; None before the first transaction. *)
Record cstate : Type := mkCs {
  c_this : option pystr; c_caller : option pystr; c_signer : option pystr;
  c_owner : pyval; c_entry : option (pystr * pystr); c_submission : pyval }.
(** [_state] and [_depth] zipped, innermost first. *)
Record context : Type := mkCtx { cx_stack : list (cstate * nat); cx_base : cstate }.
(** runtime.py 71-78 *)
Definition base0 : cstate := mkCs None None None VNone None VNone.
(** constants.py 3 *)
Definition RECURSION_LIMIT : nat := 1024.
(** runtime.py 22-25 *)
Definition get_state (c : context) : cstate := match cx_stack c with [] => cx_base c | (s, _) :: _ => s end.
(** Python: a == b for a str or None *)
Definition ostr_eqb (a b : option pystr) : bool :=
  match a, b with Some x, Some y => str_eqb x y | None, None => true | _, _ => false end.
(** runtime.py 17-20 *)
Definition context_changed (c : context) (contract : pystr) : bool := negb (ostr_eqb (c_this (get_state c)) (Some contract)).
(** runtime.py 27-30 *)
Definition add_state (limit : nat) (s : cstate) (c : context) : context :=
  if (match c_this s with Some n => context_changed c n | None => true end && Nat.ltb (List.length (cx_stack c)) limit)%bool
  then mkCtx ((s, 1) :: cx_stack c) (cx_base c) else c.
(** runtime.py 32-34 *)
Definition ins_state (c : context) : context :=
  match cx_stack c with [] => c | (s, n) :: r => mkCtx ((s, S n) :: r) (cx_base c) end.
(** runtime.py 36-41 *)
Definition pop_state (c : context) : context :=
  match cx_stack c with
  | [] => c
  | (s, n) :: r => if Nat.eqb (n - 1) 0 then mkCtx r (cx_base c) else mkCtx ((s, n - 1) :: r) (cx_base c)
  end.
(** runtime.py 43-45 *)
Definition reset_ctx (c : context) : context := mkCtx [] (cx_base c).

(** ** Tracer (tracer.py) *)
Record tracer : Type := mkTr {
  tr_cost : Z; tr_supplied : Z; tr_last_mem : Z; tr_total_mem : Z; tr_started : bool; tr_calls : Z }.
(** tracer.py 31-40 __init__: a new tracer *)
Definition tracer0 : tracer := mkTr 0 0 0 0 false 0.
(** tracer.py 28 *)
Definition MAX_STAMPS : Z := 6500000.
(** tracer.py 38: max_call_count *)
Definition MAX_CALLS : Z := 800000.
(** tracer.py 118: the limit of memory growth *)
Definition MAX_MEM : Z := 500 * 1024 * 1024.
(** tracer.py 42-46 start *)
Definition tr_start (t : tracer) : tracer := mkTr 0 (tr_supplied t) (tr_last_mem t) (tr_total_mem t) true 0.
(** tracer.py 48-51 stop *)
Definition tr_stop (t : tracer) : tracer := mkTr (tr_cost t) (tr_supplied t) (tr_last_mem t) (tr_total_mem t) false (tr_calls t).
(** tracer.py 53-59 reset *)
Definition tr_reset (t : tracer) : tracer := mkTr 0 0 0 0 false 0.
(** tracer.py 61-62 set_stamp *)
Definition set_stamp (s : Z) (t : tracer) : tracer := mkTr (tr_cost t) s (tr_last_mem t) (tr_total_mem t) (tr_started t) (tr_calls t).
(** tracer.py 65-68 / 125-129: add to the cost, stop and raise above a limit *)
Definition charge (n : Z) : st tracer unit := fun t =>
  let t := mkTr (tr_cost t + n) (tr_supplied t) (tr_last_mem t) (tr_total_mem t) (tr_started t) (tr_calls t) in
  if (Z.ltb (tr_supplied t) (tr_cost t) || Z.ltb MAX_STAMPS (tr_cost t))%bool then (Err EAssertion, tr_stop t) else (Ok tt, t).
(** tracer.py 64-68 add_cost *)
Definition add_cost : Z -> st tracer unit := charge.

(** tracer.py 8-25 cu_costs: the cost of opcodes 0..180; 255 costs 8, others 1. *)
Definition cu_table : list Z := [
    2; 2; 4; 4; 4; 4; 4; 4; 4; 2; 2; 4; 2;
    4; 4; 4; 4; 4; 4; 4; 2; 4; 8; 6; 6;
    4; 4; 4; 4; 4; 4; 6; 6; 6; 2; 6; 6;
    6; 2; 4; 4; 4; 4; 4; 2; 2; 2; 4; 2;
    6; 6; 6; 6; 4; 6; 4; 4; 4; 4; 4; 4;
    4; 4; 4; 6; 6; 8; 8; 8; 12; 2; 1610; 8;
    6; 4; 6; 6; 4; 4; 4; 6; 6; 4; 2; 126;
    1000; 4; 8; 6; 4; 2; 2; 2; 512; 8; 6; 6;
    4; 4; 2; 2; 2; 2; 6; 8; 8; 4; 4;
    38; 126; 4; 4; 4; 6; 4; 4; 4; 4; 6;
    6; 4; 4; 4; 6; 32; 2; 2; 4; 4; 4;
    6; 10; 8; 12; 4; 4; 8; 2; 2; 2; 4;
    6; 12; 6; 2; 8; 8; 6; 2; 6; 6; 6;
    6; 4; 4; 4; 6; 4; 4; 4; 4; 2; 4;
    6; 6; 6; 6; 2; 4; 4; 2; 8; 2; 4;
    4; 4; 4; 4; 4; 4; 4]%Z.
(** tracer.py 123-124: cu_costs.get(opcode, 1) *)
Definition cu_cost (op : N) : Z := if N.eqb op 255 then 8%Z else nth (N.to_nat op) cu_table 1%Z.

(** A 'line' event: whether the frame's globals hold '__contract__', the opcode at the current
    instruction (0 when get_opcode finds none, tracer.py 133-146), and the two readings of the
    process's resident memory. *)
Record line_event : Type := mkLine { le_contract : bool; le_opcode : N; le_rss1 : Z; le_rss2 : Z }.
(** tracer.py 88-131 trace_func for a 'line' event; other events do nothing.  The interpreter
    delivers events only while tracing is on (sys.settrace). *)
Definition trace_line (e : line_event) : st tracer unit := fun t =>
  let t := mkTr (tr_cost t) (tr_supplied t) (tr_last_mem t) (tr_total_mem t) (tr_started t) (tr_calls t + 1) in
  if Z.ltb MAX_CALLS (tr_calls t) then (Err EAssertion, tr_stop t)
  else if negb (le_contract e) then (Ok tt, t)
  else
    let last := if Z.eqb (tr_last_mem t) 0 then le_rss1 e else tr_last_mem t in
    let total := if Z.ltb last (le_rss2 e) then (tr_total_mem t + (le_rss2 e - last))%Z else tr_total_mem t in
    let t := mkTr (tr_cost t) (tr_supplied t) (le_rss2 e) total (tr_started t) (tr_calls t) in
    if Z.ltb MAX_MEM total then (Err EAssertion, tr_stop t)
    else charge (cu_cost (le_opcode e)) t.
(** sys.settrace: the tracer sees lines only while it is started (tracer.py 42-51) *)
Definition on_line (e : line_event) : st tracer unit := fun t => if tr_started t then trace_line e t else (Ok tt, t).

(** ** Runtime (runtime.py 83-143) *)
(** [rt_env] holds the environment values; the '__Driver' entry is the driver of the world.
    [rt_seeded] is random.Seeded.s, with the seed and the draws made since (the state of Python's
    generator is a function of these); [rt_loaded] is loaded_modules. *)
Definition draw : Type := (pystr * list pyval)%type.
(** runtime.py 83-101: the attributes of the class Runtime, and Seeded.s of bridge/random.py *)
Record runtime : Type := mkRt {
  rt_tracer : tracer; rt_writes : Z; rt_ctx : context; rt_env : dict pyval; rt_loaded : list pystr; rt_seeded : option (pystr * list draw) }.
(** runtime.py 80 (runtime.py 135-143 deduct_write) *)
Definition WRITE_MAX : Z := 1024 * 128.
(** constants.py 22 (runtime.py 135-143 deduct_write) *)
Definition WRITE_COST_PER_BYTE : Z := 25.
(** record update: an assignment to one attribute of the runtime (runtime.py 83-101) *)
Definition set_tracer (t : tracer) (r : runtime) := mkRt t (rt_writes r) (rt_ctx r) (rt_env r) (rt_loaded r) (rt_seeded r).
(** record update: an assignment to one attribute of the runtime (runtime.py 83-101) *)
Definition set_rwrites (n : Z) (r : runtime) := mkRt (rt_tracer r) n (rt_ctx r) (rt_env r) (rt_loaded r) (rt_seeded r).
(** record update: an assignment to one attribute of the runtime (runtime.py 83-101) *)
Definition set_ctx (c : context) (r : runtime) := mkRt (rt_tracer r) (rt_writes r) c (rt_env r) (rt_loaded r) (rt_seeded r).
(** record update: an assignment to one attribute of the runtime (runtime.py 83-101) *)
Definition set_env (e : dict pyval) (r : runtime) := mkRt (rt_tracer r) (rt_writes r) (rt_ctx r) e (rt_loaded r) (rt_seeded r).
(** record update: an assignment to one attribute of the runtime (runtime.py 83-101) *)
Definition set_loaded (l : list pystr) (r : runtime) := mkRt (rt_tracer r) (rt_writes r) (rt_ctx r) (rt_env r) l (rt_seeded r).
(** record update: an assignment to one attribute of the runtime (runtime.py 83-101) *)
Definition set_seeded (b : option (pystr * list draw)) (r : runtime) := mkRt (rt_tracer r) (rt_writes r) (rt_ctx r) (rt_env r) (rt_loaded r) b.
(** acting on rt.tracer (no code) *)
Definition on_tracer {A} (m : st tracer A) : st runtime A := fun r =>
  let (x, t) := m (rt_tracer r) in (x, set_tracer t r).
(** runtime.py 103-109 set_up *)
Definition set_up (stamps : Z) (meter : bool) (r : runtime) : runtime :=
  let r := if meter then set_tracer (tr_start (set_stamp stamps (rt_tracer r))) r else r in
  set_ctx (reset_ctx (rt_ctx r)) r.
(** runtime.py 111-125 clean_up (modules leave sys.modules; the context is not reset) *)
Definition clean_up (r : runtime) : runtime :=
  mkRt (tr_reset (tr_stop (rt_tracer r))) 0 (rt_ctx r) [] [] (rt_seeded r).
(** runtime.py 134-142 deduct_write; the arguments are the byte lengths *)
Definition deduct_write (klen vlen : nat) : st runtime unit := fun r =>
  if tr_started (rt_tracer r) then
    let cost := (Z.of_nat klen + Z.of_nat vlen)%Z in
    let r := set_rwrites (rt_writes r + cost)%Z r in
    if Z.ltb (rt_writes r) WRITE_MAX then on_tracer (add_cost (cost * WRITE_COST_PER_BYTE)) r
    else (Err EAssertion, r)
  else (Ok tt, r).

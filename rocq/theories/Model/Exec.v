(** * Contract programs: execution/module.py, stdlib/bridge/{access,imports,random,crypto}.py, storage/contract.py

    A contract is Python code; what the machinery of /repo can observe of it is the sequence of
    traced lines, library calls, imports and calls of other contracts it makes, each of which may
    depend on the results of the earlier ones.  [prog] is the type of such behaviours: a
    well-founded tree whose branches are functions of the values received.  Every theorem
    quantifies over all of them, so over more behaviours than Python source can express. *)
From Verif Require Import Model.Base Model.State Model.Dec Model.Time Model.Value Model.Encoder Model.Hdf5 Model.Runtime Model.Driver Model.Orm.

(** ** Behaviours *)
(** One call of the storage layer or the standard library.
    [ActEmit] declares the event (when the module is loaded, in the same transaction) and emits it.
    [ActGetVar], [ActSetVar], [ActSetContract] are reached through __Contract only
    (contracts/submission.s.py, storage/contract.py 33-50). *)
Inductive action : Type :=
| ActVarGet (x : variable) | ActVarSet (x : variable) (v : pyval)
| ActHashGet (h : hash) (k : hkey) | ActHashSet (h : hash) (k : hkey) (v : pyval)
| ActHashAll (h : hash) (args : list hpart) | ActHashClear (h : hash) (args : list hpart)
| ActEmit (event : pystr) (params : dict param) (data : dict pyval)
| ActSeed (salt : option pystr) | ActRandom (d : draw)
| ActGetVar (contract variable : pystr) | ActSetVar (contract variable : pystr) (v : pyval)
| ActSetContract (name code : pystr) (owner now developer : pyval).
(** The two ways of importing: an import statement, and importlib.import_module (bridge/imports.py 50-65).
    Dotted names are not modelled. *)
Inductive import_kind : Type := Stmt | Lib.
(** - [PLine]: the tracer sees a line.  - [PCtx]: reads ctx.  - [PEnv]: reads an environment name.
    - [PImport].  - [PCall contract fn args]: calls a function of an imported module.
    - [PApply exp body]: calls a function of the same contract, decorated with [exp] or not.
    - [PGuard lines ok]: a library call whose body is inside a bare except (crypto.verify,
      crypto.key_is_valid): it runs [lines]; answers [ok], or False if anything was raised.
    - [PExec]: storage/contract.py 18-33: compile, execute the source, run its constructor; the
      answer is the value of 'now' in the new scope.
    Contract code has no try statement, so an exception always ends the behaviour. *)
Inductive prog : Type :=
| PRet (v : pyval)
| PRaise (e : exn)
| PLine (e : line_event) (k : prog)
| PAct (a : action) (k : pyval -> prog)
| PCtx (k : cstate -> prog)
| PEnv (name : pystr) (k : pyval -> prog)
| PImport (kind : import_kind) (name : pystr) (k : prog)
| PCall (contract fn : pystr) (args : dict pyval) (k : pyval -> prog)
| PApply (exp : option pystr) (body : prog) (k : pyval -> prog)
| PGuard (lines : list line_event) (ok : bool) (k : pyval -> prog)
| PExec (name code : pystr) (args : dict pyval) (k : pyval -> prog).

(** A function: the contract named by its __export decorator, if it has one, and its behaviour for
    keyword arguments (a wrong argument list is [PRaise EType], raised inside the decorator). *)
Record func : Type := mkFunc { f_export : option pystr; f_body : dict pyval -> prog }.
(** A module: its top-level code (the result is the value it gives to the name 'now', None if it
    does not assign it), its constructor '____', and its other functions. *)
Record modul : Type := mkMod { m_init : prog; m_ctor : option (dict pyval -> prog); m_funcs : dict func }.

(** What is not modelled of Python and of the other libraries, as parameters of everything below:
    - [l_compile name source]: ContractingCompiler.parse_to_code with lint;
    - [l_marshal], [l_interp]: compile() + marshal.dumps, and marshal.loads + the behaviour of the code object;
    - [l_host], [l_sysmod], [l_stdlib]: the importable Python modules that are not contracts, which of them are
      in sys.modules, and sys.stdlib_module_names + sys.builtin_module_names;
    - [l_name_ok], [l_islower]: bridge/imports.py 51 and str.islower;
    - [l_rand seed draws d]: the answer of Python's generator; [l_ostr], [l_ord]: see Orm.v, Driver.v;
    - [l_boot]: the default timestamp (driver.py 245-251); [l_fdiv a b]: repr of the float a / b. *)
Record lang : Type := mkLang {
  l_compile : pystr -> pystr -> result pystr; l_marshal : pystr -> result (list N); l_interp : list N -> result modul;
  l_host : pystr -> option modul; l_sysmod : pystr -> bool; l_stdlib : pystr -> bool;
  l_name_ok : pystr -> bool; l_islower : pystr -> bool;
  l_rand : pystr -> list draw -> draw -> result pyval; l_ostr : pyval -> pystr; l_ord : list pystr -> list pystr;
  l_boot : pyval; l_fdiv : Z -> Z -> pystr }.

(** ** Machine *)
(** Ghost log of what happened (no code reads it): the traced lines, the completed actions with the
    context they ran in, the bodies of exported functions (with the contracts of the active calls,
    innermost first, the function's contract, the context and the driver at that moment), the calls of
    functions of Python modules that are not contracts, and the successful imports. *)
Inductive obs : Type :=
| OLine (e : line_event)
| OAct (cs : cstate) (a : action)
| OBody (chain : list pystr) (c : pystr) (cs : cstate) (v : driver)
| OHost (name fn : pystr)
| OImport (restricted : bool) (kind : import_kind) (name : pystr).
(** [s_mods]: the contract modules in sys.modules ([None]: still executing its top level);
    [s_hosts]: other Python modules imported by running code; [s_restricted]: builtins.__import__ is restricted_import. *)
Record mach : Type := mkS {
  s_w : world; s_mods : dict (option modul); s_hosts : list pystr; s_restricted : bool; s_log : list obs }.
(** record update of the machine (no code) *)
Definition set_w x s := mkS x (s_mods s) (s_hosts s) (s_restricted s) (s_log s).
(** record update of the machine (no code) *)
Definition set_mods x s := mkS (s_w s) x (s_hosts s) (s_restricted s) (s_log s).
(** record update of the machine (no code) *)
Definition set_hosts x s := mkS (s_w s) (s_mods s) x (s_restricted s) (s_log s).
(** record update of the machine (no code) *)
Definition set_restricted x s := mkS (s_w s) (s_mods s) (s_hosts s) x (s_log s).
(** record update of the machine (no code) *)
Definition set_log x s := mkS (s_w s) (s_mods s) (s_hosts s) (s_restricted s) x.
(** the driver in use: rt.env['__Driver'] (executor.py 61-66) *)
Definition s_drv (s : mach) : driver := w_drv (s_w s).
(** the singleton rt of runtime.py 83-101 *)
Definition s_rt (s : mach) : runtime := w_rt (s_w s).
(** rt.context of runtime.py 89 *)
Definition s_ctx (s : mach) : context := rt_ctx (s_rt s).
(** acting on driver and runtime (no code) *)
Definition on_w {A} (m : st world A) : st mach A := fun s => let (x, w) := m (s_w s) in (x, set_w w s).
(** a change of rt.context (runtime.py 27-41) *)
Definition upd_ctx (f : context -> context) (s : mach) : mach := set_w (upd_rt (fun r => set_ctx (f (rt_ctx r)) r) (s_w s)) s.
(** the ghost log gets an entry (no code) *)
Definition note (o : obs) (s : mach) : mach := set_log (s_log s ++ [o]) s.

(** ** Randomness (bridge/random.py) *)
(** bool(v) *)
Definition truthy (v : pyval) : bool :=
  match v with
  | VNone => false | VBool b => b | VInt z => negb (Z.eqb z 0) | VStr s => negb (str_eqb s []) | VBytes b => negb (str_eqb b [])
  | VFloat r => negb (str_eqb r (u "0.0") || str_eqb r (u "-0.0")) | VDec d => cd_bool d
  | VDecimal (DFin d) => negb (N.eqb (fcoef d) 0)
  | VList [] | VTuple [] | VDict [] => false
  | _ => true
  end.
(** x or '0', concatenated to a str: TypeError when not a str *)
Definition or_zero (v : pyval) : result pystr :=
  if truthy v then match v with VStr s => Ok s | _ => Err EType end else Ok (u "0").
(** random.py 24-40 *)
Definition seed_text (L : lang) (env : dict pyval) (salt : option pystr) : result pystr :=
  do height <- match pget (u "block_num") env with VNone => Ok (u "0") | v => py_str (l_ostr L) v end;
  let aux := match salt with
             | Some n => if truthy (pget n env) then pget n env else pget (u "AUXILIARY_SALT") env
             | None => pget (u "AUXILIARY_SALT") env
             end in
  do aux <- if truthy aux then py_str (l_ostr L) aux else Ok [];
  do bh <- or_zero (pget (u "block_hash") env);
  do ih <- or_zero (pget (u "__input_hash") env);
  Ok (height ++ bh ++ ih ++ aux).
(** random.py 42-43: random.seed(s); Seeded.s = True *)
Definition do_seed (L : lang) (salt : option pystr) : st world pyval :=
  let! r := gets w_rt in
  let! s := lift (seed_text L (rt_env r) salt) in
  modify (upd_rt (set_seeded (Some (s, []))));; ret VNone.
(** random.py 46-84: getrandbits, shuffle, randrange, randint, choice, choices *)
Definition do_random (L : lang) (d : draw) : st world pyval :=
  let! r := gets w_rt in
  match rt_seeded r with
  | None => raise EAssertion
  | Some (s, ds) => modify (upd_rt (set_seeded (Some (s, ds ++ [d]))));; lift (l_rand L s ds d)
  end.

(** ** Actions *)
Definition do_act (L : lang) (a : action) : st world pyval :=
  match a with
  | ActVarGet x => var_get x
  | ActVarSet x v => var_set x v;; ret VNone
  | ActHashGet h k => hash_get (l_ostr L) h k
  | ActHashSet h k v => hash_set (l_ostr L) h k v;; ret VNone
  | ActHashAll h args => let! l := hash_all (l_ostr L) (l_ord L) h args in ret (VList l)
  | ActHashClear h args => hash_clear (l_ostr L) (l_ord L) h args;; ret VNone
  | ActEmit event params data => let! e := log_decl event params in log_emit (l_ostr L) e data;; ret VNone
  | ActSeed salt => do_seed L salt
  | ActRandom d => do_random L d
  | ActGetVar c n => on_drv (get_var c n [])
  | ActSetVar c n v => set_var c n [] v;; ret VNone
  | ActSetContract name code owner now developer =>
      set_contract (l_marshal L) name code owner now developer;; ret VNone
  end.
(** The action, recorded when it completes *)
Definition act (L : lang) (a : action) : st mach pyval := fun s =>
  let cs := get_state (s_ctx s) in
  match on_w (do_act L a) s with
  | (Ok v, s') => (Ok v, note (OAct cs a) s')
  | (Err e, s') => (Err e, s')
  end.
(** tracer.py 88-131 *)
Definition line (e : line_event) : st mach unit := fun s =>
  on_w (on_rt (on_tracer (on_line e))) (note (OLine e) s).
(** crypto.py 11-15, 23-27: try: ... except: return False *)
Definition guard (lines : list line_event) : st mach bool := fun s =>
  match foreach line lines s with
  | (Ok _, s') => (Ok true, s')
  | (Err _, s') => (Ok false, s')
  end.

(** ** The decorator __export (bridge/access.py 7-34) *)
(** owner == caller *)
Definition is_owner (o : pyval) (c : option pystr) : bool :=
  match o, c with VStr a, Some b => str_eqb a b | VNone, None => true | _, _ => false end.
(** access.py 11-31 __enter__ *)
Definition enter (c : pystr) : st mach unit :=
  let! changed := gets (fun s => context_changed (s_ctx s) c) in
  if changed then
    let! owner := on_w (on_drv (get_owner c)) in
    let! cs := gets (fun s => get_state (s_ctx s)) in
    modify (upd_ctx (add_state RECURSION_LIMIT (mkCs (Some c) (c_this cs) (c_signer cs) owner (c_entry cs) (c_submission cs))));;
    if (is_none owner || is_owner owner (c_this cs))%bool then ret tt else raise EException
  else modify (upd_ctx ins_state).
(** contextlib.ContextDecorator: enter, body, and __exit__ (access.py 33-34) whatever the body does;
    nothing is undone when __enter__ raises *)
Definition with_export (chain : list pystr) (c : pystr) (body : st mach pyval) : st mach pyval := fun s =>
  match enter c s with
  | (Err e, s1) => (Err e, s1)
  | (Ok _, s1) =>
      let (r, s2) := body (note (OBody chain c (get_state (s_ctx s1)) (s_drv s1)) s1) in
      (r, upd_ctx pop_state s2)
  end.

(** ** Imports (execution/module.py) *)
(** module.py 97-107: the stored code *)
Definition fetch (L : lang) (name : pystr) : st mach modul :=
  let! code := on_w (on_drv (get_compiled name)) in
  let! blob := lift (match code with
                     | VNone => Err EImport
                     | VBytes b => Ok b
                     | VStr s => fromhex s
                     | _ => Err EType
                     end) in
  lift (l_interp L blob).
Section Run.
  Variable L : lang.
  (** How code one call deeper runs: ERecursion when Python's stack is exhausted *)
  Variable R : list pystr -> prog -> st mach pyval.
  (** module.py 95-121 exec_module, and importlib's bookkeeping of sys.modules.  The top-level code
      runs in the context of whoever imports. *)
  Definition load (chain : list pystr) (name : pystr) : st mach unit := fun s =>
    match (let! md := fetch L name in R (name :: chain) (m_init md);; ret md) (set_mods (dset name None (s_mods s)) s) with
    | (Ok md, s') =>
        (Ok tt, set_w (upd_rt (fun r => set_loaded (rt_loaded r ++ [name]) r) (s_w s')) (set_mods (dset name (Some md) (s_mods s')) s'))
    | (Err e, s') => (Err e, set_mods (ddel name (s_mods s')) s')
    end.
  (** the import succeeded (ghost log) *)
  Definition imported (kind : import_kind) (name : pystr) : st mach unit :=
    modify (fun s => note (OImport (s_restricted s) kind name) s).
  (** importlib: a Python module that is no contract is bound in the importing code *)
  Definition hosted (name : pystr) : st mach unit := modify (fun s => set_hosts (name :: s_hosts s) s).
  (** Python's import: sys.modules, then DatabaseFinder (module.py 79-82), then the other finders *)
  Definition plain_import (kind : import_kind) (chain : list pystr) (name : pystr) : st mach unit :=
    let! there := gets (fun s => dmem name (s_mods s)) in
    if there then imported kind name
    else if l_sysmod L name then hosted name;; imported kind name
    else
      let! c := on_w (on_drv (get_contract name)) in
      if negb (is_none c) then load chain name;; imported kind name
      else match l_host L name with
           | Some _ => hosted name;; imported kind name
           | None => raise EImport
           end.
  (** module.py 28-34 restricted_import in contract code *)
  Definition restricted_import (chain : list pystr) (name : pystr) : st mach unit :=
    let! there := gets (fun s => dmem name (s_mods s)) in
    if there then imported Stmt name
    else if l_sysmod L name then raise EImport
    else
      let! c := on_w (on_drv (get_contract name)) in
      if negb (is_none c) then load chain name;; imported Stmt name else raise EImport.
  (** bridge/imports.py 50-65 import_module *)
  Definition lib_import (chain : list pystr) (name : pystr) : st mach unit :=
    lift (assertr (l_name_ok L name));;
    lift (assertr (l_islower L name));;
    (if l_stdlib L name then raise EImport else ret tt);;
    (if startswith name (u "_") then raise EImport else ret tt);;
    let! c := on_w (on_drv (get_contract name)) in
    if is_none c then raise EImport else plain_import Lib chain name.
  (** an import statement (module.py 28-38), or importlib.import_module of bridge/imports.py 50-65 *)
  Definition import (kind : import_kind) (chain : list pystr) (name : pystr) : st mach unit :=
    match kind with
    | Stmt => let! r := gets s_restricted in if r then restricted_import chain name else plain_import Stmt chain name
    | Lib => lib_import chain name
    end.

  (** ** Calls *)
  Definition invoke (chain : list pystr) (owner : pystr) (f : func) (args : dict pyval) : st mach pyval :=
    match f_export f with
    | Some c => with_export chain c (R (c :: chain) (f_body f args))
    | None => R (owner :: chain) (f_body f args)
    end.
  (** contract.fn of an imported module *)
  Definition call (chain : list pystr) (contract fn : pystr) (args : dict pyval) : st mach pyval :=
    let! found := gets (fun s => dget contract (s_mods s)) in
    match found with
    | Some (Some md) => match dget fn (m_funcs md) with Some f => invoke chain contract f args | None => raise EAttribute end
    | Some None => raise EAttribute
    | None =>
        let! host := gets (fun s => str_mem contract (s_hosts s)) in
        if host then
          match l_host L contract with
          | Some md => match dget fn (m_funcs md) with
                       | Some f => modify (note (OHost contract fn));; R (contract :: chain) (f_body f args)
                       | None => raise EAttribute
                       end
          | None => raise EAttribute
          end
        else raise EName
    end.
  (** storage/contract.py 18-33 *)
  Definition exec_code (chain : list pystr) (name code : pystr) (args : dict pyval) : st mach pyval :=
    let! text := lift (l_compile L name code) in
    let! blob := lift (l_marshal L text) in
    let! md := lift (l_interp L blob) in
    let! top := R chain (m_init md) in
    (match m_ctor md with Some f => R chain (f args) | None => ret VNone end);;
    if is_none top then gets (fun s => pget (u "now") (rt_env (s_rt s))) else ret top.

  (** CPython's evaluation of contract code, as a behaviour: each step is that of the function cited at its definition *)
  Fixpoint go (chain : list pystr) (p : prog) {struct p} : st mach pyval :=
    match p with
    | PRet v => ret v
    | PRaise e => raise e
    | PLine e k => line e;; go chain k
    | PAct a k => let! v := act L a in go chain (k v)
    | PCtx k => let! cs := gets (fun s => get_state (s_ctx s)) in go chain (k cs)
    | PEnv name k =>
        let! e := gets (fun s => rt_env (s_rt s)) in
        match dget name e with Some v => go chain (k v) | None => raise EName end
    | PImport kind name k => import kind chain name;; go chain k
    | PCall contract fn args k => let! v := call chain contract fn args in go chain (k v)
    | PApply exp body k =>
        let! v := match exp with Some c => with_export chain c (R (c :: chain) body) | None => R chain body end in
        go chain (k v)
    | PGuard lines ok k => let! b := guard lines in go chain (k (VBool (b && ok)))
    | PExec name code args k => let! v := exec_code chain name code args in go chain (k v)
    end.
End Run.
(** Running with at most [fuel] nested calls (Python's recursion limit): RecursionError beyond. *)
Fixpoint run (L : lang) (fuel : nat) : list pystr -> prog -> st mach pyval :=
  match fuel with
  | O => go L (fun _ _ => raise ERecursion)
  | S n => go L (run L n)
  end.
(** The code one call deeper than [run L fuel] *)
Definition deeper (L : lang) (fuel : nat) : list pystr -> prog -> st mach pyval :=
  match fuel with O => fun _ _ => raise ERecursion | S n => run L n end.

(** ** The submission contract (contracts/submission.s.py) *)
Definition SUBMISSION := u "submission".
(** storage/contract.py 14-50 Contract.submit *)
Definition submit_prog (L : lang) (name code : pystr) (owner : pyval) (args : dict pyval) (developer : pyval) : prog :=
  PAct (ActGetVar name CODE_KEY) (fun c =>
    if negb (is_none c) then PRaise EException
    else PExec name code args (fun now =>
      match l_compile L name code with
      | Err e => PRaise e
      | Ok text => PAct (ActSetContract name text owner (if is_none now then l_boot L else now) developer) (fun _ => PRet VNone)
      end)).
(** the value of ctx.caller and the like (runtime.py 47-69) as a Python value *)
Definition of_name (o : option pystr) : pyval := match o with Some n => VStr n | None => VNone end.
(** submission.s.py 1-16 submit_contract (name and code are str; lines not shown) *)
Definition submit_contract_body (L : lang) (name code : pystr) (owner : pyval) (args : dict pyval) : prog :=
  PCtx (fun cs =>
    if (negb (ostr_eqb (c_caller cs) (Some (u "sys"))) && negb (startswith name (u "con_")))%bool then PRaise EAssertion
    else if negb (ostr_eqb (c_caller cs) (c_signer cs)) then PRaise EAssertion
    else if negb (Nat.leb (List.length name) 64) then PRaise EAssertion
    else if negb (l_islower L name) then PRaise EAssertion
    else submit_prog L name code owner args (of_name (c_caller cs))).
(** submission.s.py 19-28 change_developer *)
Definition change_developer_body (contract : pystr) (new : pyval) : prog :=
  PCtx (fun cs => PAct (ActGetVar contract DEVELOPER_KEY) (fun d =>
    if is_owner d (c_caller cs) then PAct (ActSetVar contract DEVELOPER_KEY new) (fun _ => PRet VNone) else PRaise EAssertion)).
(** keyword arguments of the two functions; anything else is a TypeError *)
Definition dict_args (v : pyval) : option (dict pyval) :=
  match v with
  | VNone => Some []
  | VDict d => fold_right (fun kv acc => match fst kv, acc with KStr k, Some l => Some ((k, snd kv) :: l) | _, _ => None end) (Some []) d
  | _ => None
  end.
(** contracts/submission.s.py 1-28 as a module *)
Definition submission_modul (L : lang) : modul := mkMod (PRet VNone) None [
  (u "submit_contract", mkFunc (Some SUBMISSION) (fun kw =>
     match dget (u "name") kw, dget (u "code") kw, dict_args (pget (u "constructor_args") kw) with
     | Some (VStr name), Some (VStr code), Some args => submit_contract_body L name code (pget (u "owner") kw) args
     | _, _, _ => PRaise EType
     end));
  (u "change_developer", mkFunc (Some SUBMISSION) (fun kw =>
     match dget (u "contract") kw, dget (u "new_developer") kw with
     | Some (VStr c), Some n => change_developer_body c n
     | _, _ => PRaise EType
     end))].

(** * What the properties of contract execution talk about *)
From Verif Require Import Model.Base Model.State Model.Dec Model.Time Model.Value Model.Encoder Model.Hdf5 Model.Runtime Model.Driver Model.Orm Model.Exec Model.Executor Spec.DecSpec.

(** Every node of a behaviour satisfies Q *)
Fixpoint each (Q : prog -> Prop) (p : prog) : Prop :=
  Q p /\ match p with
         | PRet _ | PRaise _ => True
         | PLine _ k => each Q k
         | PAct _ k => forall v, each Q (k v)
         | PCtx k => forall c, each Q (k c)
         | PEnv _ k => forall v, each Q (k v)
         | PImport _ _ k => each Q k
         | PCall _ _ _ k => forall v, each Q (k v)
         | PApply _ b k => each Q b /\ forall v, each Q (k v)
         | PGuard _ _ k => forall v, each Q (k v)
         | PExec _ _ _ k => forall v, each Q (k v)
         end.
(** All code of a module; all code there is *)
Record module_all (Q : prog -> Prop) (md : modul) : Prop := mkModAll {
  ma_init : each Q (m_init md);
  ma_ctor : forall f a, m_ctor md = Some f -> each Q (f a);
  ma_func : forall n f a, dget n (m_funcs md) = Some f -> each Q (f_body f a) }.
Definition lang_all (QM : modul -> Prop) (L : lang) : Prop :=
  (forall b md, l_interp L b = Ok md -> QM md) /\ (forall n md, l_host L n = Some md -> QM md).
(** All loaded modules *)
Definition mods_all (QM : modul -> Prop) (d : dict (option modul)) : Prop := forall n md, dget n d = Some (Some md) -> QM md.

(** Library functions that swallow every exception *)
Definition no_guard (p : prog) : Prop := match p with PGuard _ _ _ => False | _ => True end.

(** ** Metering *)
Definition tracer_of (s : mach) : tracer := rt_tracer (s_rt s).
Definition cost_of (s : mach) : Z := tr_cost (tracer_of s).
Definition bytes_of (s : mach) : Z := rt_writes (s_rt s).
(** The cost of a traced line: only lines of contract code cost *)
Definition line_cost (o : obs) : Z := match o with OLine e => if le_contract e then cu_cost (le_opcode e) else 0%Z | _ => 0%Z end.
Definition line_costs (l : list obs) : Z := fold_right (fun o n => (line_cost o + n)%Z) 0%Z l.
Definition line_count (l : list obs) : Z := Z.of_nat (List.length (filter (fun o => match o with OLine _ => true | _ => false end) l)).
(** The UTF-8 bytes of a key and of the JSON text of a value *)
Definition entry_bytes (k : pystr) (v : pyval) : Z :=
  match utf8_len k, encode v with
  | Ok a, Ok text => match utf8_len text with Ok b => (Z.of_nat a + Z.of_nat b)%Z | Err _ => 0%Z end
  | _, _ => 0%Z
  end.
(** The bytes of an assignment or an emitted event *)
Definition act_bytes (L : lang) (o : obs) : Z :=
  match o with
  | OAct _ (ActVarSet x v) => entry_bytes (v_key x) v
  | OAct _ (ActHashSet h k v) => match validate_key (l_ostr L) k with Ok t => entry_bytes (entry_key h t) v | Err _ => 0%Z end
  | OAct _ (ActEmit _ params data) =>
      fold_right (fun p n => ((match dget (fst p) data with Some v => entry_bytes (fst p) v | None => 0 end) + n)%Z) 0%Z params
  | _ => 0%Z
  end.
Definition act_bytes_of (L : lang) (l : list obs) : Z := fold_right (fun o n => (act_bytes L o + n)%Z) 0%Z l.
(** Within all limits *)
Definition within (s : mach) : Prop :=
  (cost_of s <= tr_supplied (tracer_of s))%Z /\ (cost_of s <= 6500000)%Z /\ (tr_calls (tracer_of s) <= 800000)%Z /\ (bytes_of s < 131072)%Z.

(** ** Transactions *)
(** What is left of a transaction that ended normally *)
Record idle (s : mach) : Prop := mkIdle {
  id_tracer : rt_tracer (s_rt s) = tracer0; id_bytes : rt_writes (s_rt s) = 0%Z; id_env : rt_env (s_rt s) = [];
  id_loaded : rt_loaded (s_rt s) = []; id_seed : rt_seeded (s_rt s) = None; id_res : s_restricted s = false }.
(** The contracts' view of a key *)
Definition reads_as (s : mach) (k : pystr) : result pyval := fst (get k (s_drv s)).
(** The number of 10^-30 units an account holds *)
Definition amount (v : pyval) (n : Z) : Prop :=
  match v with
  | VNone => n = 0%Z
  | VInt z => n = (z * ONE)%Z /\ (- LIMU < n <= MAXU)%Z
  | VDec d => constructed d /\ has_units d n
  | _ => False
  end.
(** Writes recorded in the log: what ORM assignments stored *)
Definition write_of (L : lang) (o : obs) : option (pystr * pyval) :=
  match o with
  | OAct _ (ActVarSet x v) => match coerce v with Ok y => Some (v_key x, y) | Err _ => None end
  | OAct _ (ActHashSet h k v) =>
      match validate_key (l_ostr L) k, coerce v with Ok t, Ok y => Some (entry_key h t, y) | _, _ => None end
  | _ => None
  end.
Fixpoint writes_of (L : lang) (l : list obs) : list (pystr * pyval) :=
  match l with [] => [] | o :: l' => match write_of L o with Some kv => kv :: writes_of L l' | None => writes_of L l' end end.
(** The last value written to a key *)
Fixpoint final_write (k : pystr) (l : list (pystr * pyval)) : option pyval :=
  match l with
  | [] => None
  | (k', v) :: l' => match final_write k l' with Some w => Some w | None => if str_eqb k k' then Some v else None end
  end.
(** Actions that change storage without going through an ORM assignment *)
Definition orm_only (p : prog) : Prop :=
  match p with PAct (ActHashClear _ _) _ | PAct (ActSetVar _ _ _) _ | PAct (ActSetContract _ _ _ _ _) _ => False | _ => True end.
(** The event an emission should report *)
Definition event_of (o : obs) : option event :=
  match o with
  | OAct cs (ActEmit name params data) =>
      let pick (sel : bool) := flat_map (fun p => if Bool.eqb (p_idx (snd p)) sel then match dget (fst p) data with Some v => [(fst p, v)] | None => [] end else []) params in
      Some (mkEvent (c_this cs) name (c_signer cs) (c_caller cs) (pick true) (pick false))
  | _ => None
  end.
Fixpoint events_of (l : list obs) : list event :=
  match l with [] => [] | o :: l' => match event_of o with Some e => e :: events_of l' | None => events_of l' end end.

(** ** Context *)
(** The contract that made the innermost call crossing into [c]; for the entry contract the sender *)
Fixpoint expected_caller (sender entry c : pystr) (chain : list pystr) : pystr :=
  match chain with
  | [] => if str_eqb c entry then sender else entry
  | x :: r => if str_eqb x c then expected_caller sender entry c r else x
  end.
(** Code that calls no contract function *)
Definition calls_nothing (p : prog) : Prop :=
  match p with PCall _ _ _ _ | PApply (Some _) _ _ | PExec _ _ _ _ => False | _ => True end.
(** Compiled contract code: functions of other contracts are called by public names (no leading '__'), *)
Definition public_calls (p : prog) : Prop := match p with PCall _ fn _ _ => startswith fn (u "__") = false | _ => True end.
(** public functions carry the export decorator, and the top-level code calls nothing *)
Record decorated (md : modul) : Prop := mkDecorated {
  de_init : each calls_nothing (m_init md);
  de_all : module_all public_calls md;
  de_export : forall n f, dget n (m_funcs md) = Some f -> startswith n (u "__") = false -> f_export f <> None }.
(** All contracts are such modules, and Python's own modules call no contract *)
Record regular (L : lang) : Prop := mkRegular {
  rg_interp : forall b md, l_interp L b = Ok md -> decorated md;
  rg_host : forall n md m f a, l_host L n = Some md -> dget m (m_funcs md) = Some f -> each calls_nothing (f_body f a) }.
(** Contracts call nothing at their top level, and Python's own modules call no contract *)
Record plain_tops (L : lang) : Prop := mkPlain {
  pl_interp : forall b md, l_interp L b = Ok md -> each calls_nothing (m_init md);
  pl_host : forall n md m f a, l_host L n = Some md -> dget m (m_funcs md) = Some f -> each calls_nothing (f_body f a) }.
(** Who may enter a contract with this owner entry *)
Definition admitted (owner : pyval) (who : pystr) : Prop := owner = VNone \/ owner = VStr who.
(** What holds of the body of every exported function *)
Definition body_right (sender entry fn : pystr) (o : obs) : Prop :=
  match o with
  | OBody chain c cs v =>
      c_this cs = Some c /\ c_caller cs = Some (expected_caller sender entry c chain) /\ c_signer cs = Some sender /\ c_entry cs = Some (entry, fn) /\
      (hd entry chain <> c -> exists owner, fst (get_owner c v) = Ok owner /\ admitted owner (hd entry chain))
  | _ => True
  end.

(** ** Randomness *)
(** Every completed random draw has a completed seed() before it; [seeded]: there was one earlier *)
Fixpoint drawn_after_seed (seeded : bool) (l : list obs) : Prop :=
  match l with
  | [] => True
  | OAct _ (ActSeed _) :: r => drawn_after_seed true r
  | OAct _ (ActRandom _) :: r => seeded = true /\ drawn_after_seed seeded r
  | _ :: r => drawn_after_seed seeded r
  end.
(** Two environments agree on what seed() may look at *)
Definition same_seed_inputs (salt : option pystr) (e e' : dict pyval) : Prop :=
  pget (u "block_num") e = pget (u "block_num") e' /\ pget (u "block_hash") e = pget (u "block_hash") e' /\
  pget (u "__input_hash") e = pget (u "__input_hash") e' /\ pget (u "AUXILIARY_SALT") e = pget (u "AUXILIARY_SALT") e' /\
  forall n, salt = Some n -> pget n e = pget n e'.

(** ** Which code runs *)
(** Contract [c] is stored in the database, and its stored code has the public function [fn] *)
Definition has_code (s : mach) (c : pystr) : Prop := exists code, reads_as s (c ++ u ".__code__") = Ok code /\ code <> VNone.
Definition stored_function (L : lang) (s : mach) (c fn : pystr) (f : func) : Prop :=
  has_code s c /\ exists blob md,
    (reads_as s (c ++ u ".__compiled__") = Ok (VBytes blob) \/ exists hex, reads_as s (c ++ u ".__compiled__") = Ok (VStr hex) /\ fromhex hex = Ok blob) /\
    l_interp L blob = Ok md /\ dget fn (m_funcs md) = Some f.
(** No code ran *)
Definition nothing_ran (l : list obs) : Prop := Forall (fun o => match o with OImport _ _ _ => True | _ => False end) l.
(** No function of a Python module was called *)
Definition no_host_ran (l : list obs) : Prop := Forall (fun o => match o with OHost _ _ => False | _ => True end) l.
(** Top-level code that calls no function and imports no Python module *)
Definition imports_no_python (L : lang) (p : prog) : Prop :=
  calls_nothing p /\ match p with PImport Stmt n _ => l_sysmod L n = false /\ l_host L n = None | _ => True end.
(** Python's own modules that are loaded belong to the standard library *)
Definition loaded_is_stdlib (L : lang) : Prop := forall n, l_sysmod L n = true -> l_stdlib L n = true.

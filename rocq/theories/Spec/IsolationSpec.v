(** * A contract's storage changes only through its own functions: what that means *)
From Verif Require Import Model.Base Model.State Model.Value Model.Encoder Model.Hdf5 Model.Runtime Model.Driver Model.Orm Model.Exec Model.Executor.
From Verif Require Import Spec.ExecSpec.
Local Open Scope string_scope.
Local Open Scope list_scope.

(** What the driver of a machine reads, key by key *)
Definition look (s : mach) : pystr -> result pyval := fun k => fst (get k (s_drv s)).
(** The keys of the contract's variables, hashes and metadata: 'contract.' followed by anything without a dot.  (Hash keys have no dots; the
    developer can be changed by the submission contract.) *)
Definition storage_of (c : pystr) (k : pystr) : Prop :=
  exists r, k = c ++ u "." ++ r /\ ~ In (ch ".") r /\ r <> DEVELOPER_KEY.
(** The keys of compiled code *)
Definition code_key (k : pystr) : Prop := exists n, ~ In (ch ":") n /\ k = n ++ u ".__compiled__".
(** A key that other code may write *)
Definition harmless (c k : pystr) : Prop := ~ storage_of c k /\ ~ code_key k.

(** ** Foreign code: behaviours that write no key of contract [c] and no compiled code themselves *)
Definition foreign_action (L : lang) (c : pystr) (a : action) : Prop :=
  match a with
  | ActVarSet x _ => harmless c (v_key x)
  | ActHashSet h k _ => forall s, validate_key (l_ostr L) k = Ok s -> harmless c (entry_key h s)
  | ActHashClear h _ => forall k, startswith k (h_key h ++ u ":") = true -> harmless c k
  | ActSetVar n x _ => harmless c (make_key n x [])
  | ActSetContract _ _ _ _ _ => False
  | _ => True
  end.
(** ... and names it imports have no colon, as no Python name has; and it does not run code under the name of [c] *)
Definition foreign_node (L : lang) (c : pystr) (p : prog) : Prop :=
  match p with
  | PAct a _ => foreign_action L c a
  | PImport _ n _ => ~ In (ch ":") n
  | PExec n _ _ _ => n <> c
  | _ => True
  end.
Definition foreign (L : lang) (c : pystr) : prog -> Prop := each (foreign_node L c).

(** A relation between what is read before and after, that looks only at the storage of [c] *)
Record storage_relation (c : pystr) (R : (pystr -> result pyval) -> (pystr -> result pyval) -> Prop) : Prop := mkSR {
  sr_trans : forall f g h, R f g -> R g h -> R f h;
  sr_local : forall f g, (forall k, storage_of c k -> g k = f k) -> R f g }.

(** ** Worlds in which only the functions [Own] of contract [c] touch its storage *)
Section Worlds.
  Variables (L : lang) (c : pystr) (Own : prog -> Prop).
  (** A module: the submission contract; or all its code is foreign or one of the functions of [c] *)
  Definition loadable (md : modul) : Prop :=
    md = submission_modul L \/
    foreign L c (m_init md) /\ forall fn f args, dget fn (m_funcs md) = Some f -> foreign L c (f_body f args) \/ Own (f_body f args).
  (** Stored code (module.py 97-107): bytes, or a hex string *)
  Definition blob_of (x : pyval) : result (list N) :=
    match x with VNone => Err EImport | VBytes b => Ok b | VStr s => fromhex s | _ => Err EType end.
  (** The contract is deployed, and all stored and loaded code is loadable *)
  Record deployed_world (s : mach) : Prop := mkDW {
    dw_code : look s (c ++ u ".__code__") <> Ok VNone;
    dw_stored : forall n x b md, ~ In (ch ":") n -> look s (n ++ u ".__compiled__") = Ok x -> blob_of x = Ok b -> l_interp L b = Ok md -> loadable md;
    dw_mods : mods_all loadable (s_mods s) }.
  (** Whatever compiles under another name, and every Python module, is foreign code; contract names for importlib have no colon *)
  Record honest_language : Prop := mkHL {
    hl_compiled : forall n code text b md, n <> c -> l_compile L n code = Ok text -> l_marshal L text = Ok b -> l_interp L b = Ok md ->
      foreign L c (m_init md) /\ (forall f args, m_ctor md = Some f -> foreign L c (f args)) /\
      forall fn f args, dget fn (m_funcs md) = Some f -> foreign L c (f_body f args);
    hl_host : forall n md, l_host L n = Some md -> forall fn f args, dget fn (m_funcs md) = Some f -> foreign L c (f_body f args);
    hl_order : forall l k, In k (l_ord L l) <-> In k l }.
End Worlds.
(** A computation that, started in such a world, ends in one if it returns, and relates what is read before and after *)
Definition preserves (L : lang) (c : pystr) (Own : prog -> Prop) (R : (pystr -> result pyval) -> (pystr -> result pyval) -> Prop) {A} (m : st mach A) : Prop :=
  forall s a s', deployed_world L c Own s -> m s = (Ok a, s') -> deployed_world L c Own s' /\ R (look s) (look s').
(** The functions of the submission contract *)
Definition submission_body (L : lang) (p : prog) : Prop := exists fn f args, dget fn (m_funcs (submission_modul L)) = Some f /\ p = f_body f args.
(** Every function of [c] preserves the relation, provided that the code it calls does (other contracts, or [c] itself again) *)
Definition keeps_storage (L : lang) (c : pystr) (Own : prog -> Prop) (R : (pystr -> result pyval) -> (pystr -> result pyval) -> Prop) : Prop :=
  forall p fuel chain, Own p ->
    (forall chain q, foreign L c q \/ Own q \/ submission_body L q -> preserves L c Own R (deeper L fuel chain q)) ->
    preserves L c Own R (run L fuel chain p).

(** ** Histories: transactions that return (with status 0 or 1, without auto-commit), and steps between them after which every key reads as before (such as a commit) *)
Inductive history (L : lang) (fuel : nat) : list (cfg * txn) -> mach -> mach -> Prop :=
| hi_nil s : history L fuel [] s s
| hi_tx g t s out s1 l s' : t_auto t = false -> ~ In (ch ":") (t_contract t) -> execute L fuel g t s = (Ok out, s1) -> history L fuel l s1 s' -> history L fuel ((g, t) :: l) s s'
| hi_other s s1 l s' : (forall k, look s1 k = look s k) -> s_mods s1 = s_mods s -> history L fuel l s1 s' -> history L fuel l s s'.
(** The transaction takes no fee, or takes it elsewhere *)
Definition fee_elsewhere (c : pystr) (x : cfg * txn) : Prop := metered (fst x) (snd x) = false \/ ~ storage_of c (balance_key (fst x) (snd x)).

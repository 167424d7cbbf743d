(** * client.py

    The parts of ContractingClient and AbstractContract that act on storage and execution.
    Not modelled: closure_to_code_string (inspect, autopep8, astor), lint and compile (they only
    call Model/Linter.v, Model/Compiler.v), return_full_output, the function lists of
    AbstractContract (get_contract is modelled as far as it reads the code: the stored code is
    assumed to parse), __getattr__ of a name that is no function. *)
From Verif Require Import Model.Base Model.State Model.Dec Model.Time Model.Value Model.Encoder Model.Hdf5 Model.Runtime Model.Driver Model.Orm Model.Exec Model.Executor.

(** client.py 189-216: the executor with its driver and settings, the environment (one dict, shared by all
    contracts of the client and, if it is the default argument, by all clients), the signer *)
Record client : Type := mkClient { k_mach : mach; k_cfg : cfg; k_env : dict pyval; k_signer : pystr }.
(** record update: an assignment to one attribute of the client (client.py 189-216) *)
Definition set_kmach m c := mkClient m (k_cfg c) (k_env c) (k_signer c).
(** record update: an assignment to one attribute of the client (client.py 189-216) *)
Definition set_kcfg g c := mkClient (k_mach c) g (k_env c) (k_signer c).
(** record update: an assignment to one attribute of the client (client.py 189-216) *)
Definition set_kenv e c := mkClient (k_mach c) (k_cfg c) e (k_signer c).
(** client.py 84-111 run_private_function: executor.bypass_privates = b *)
Definition with_bypass (b : bool) (g : cfg) : cfg := mkCfg (g_metering g) (g_currency g) (g_balances g) b (g_bypass_balance g).
(** what the client's executor does to the machine (client.py 146-186 _abstract_function_call) *)
Definition on_m {A} (m : st mach A) : st client A := fun c => let (r, s) := m (k_mach c) in (r, set_kmach s c).
(** what the client's driver does (client.py 189-216: self.raw_driver is the executor's driver) *)
Definition on_kd {A} (m : st driver A) : st client A := on_m (on_w (on_drv m)).
(** 'now', the key of the environment's time (client.py 142-144, 146-186) *)
Definition NOW := u "now".
(** constants.py 29, 24 *)
Definition DEFAULT_STAMPS : Z := 1000000.
(** constants.py 24 *)
Definition STAMPS_PER_TAU : Z := 20.

Section Client.
  Variables (L : lang) (fuel : nat).
  (** client.py 146-185 _abstract_function_call.  [clock]: datetime.today() (142-144), to the minute.
      [now]: the keyword argument; [env]: the keyword argument environment (an empty one counts as not given) *)
  Definition call_contract (clock : pyval) (signer contract func : pystr) (kw : dict pyval) (env : option (dict pyval)) (meter : option bool) (now : option pyval) : st client pyval :=
    let own := match env with Some (_ :: _) => false | _ => true end in
    let! c := gets (fun c => c) in
    let environment := match env with Some (x :: e) => x :: e | _ => k_env c end in
    let now := match now with Some n => if is_none n then clock else n | None => clock end in
    let environment := if is_none (pget NOW environment) then dset NOW now environment else environment in
    (if own then modify (set_kenv environment) else ret tt);;
    let! o := on_m (execute L fuel (k_cfg c) (mkTx signer contract func kw environment false DEFAULT_STAMPS STAMPS_PER_TAU meter)) in
    if Z.eqb (o_status o) 1 then lift (match o_result o with Ok _ => Err EType | Err e => Err e end) else lift (o_result o).
  (** client.py 84-111 run_private_function: there is no try: an exception leaves bypass_privates set *)
  Definition run_private_function (clock : pyval) (contract f : pystr) (signer : option pystr) (env : option (dict pyval)) (kw : dict pyval) : st client pyval :=
    let! c := gets (fun c => c) in
    let signer := match signer with Some (x :: s) => x :: s | _ => k_signer c end in
    modify (fun c => set_kcfg (with_bypass true (k_cfg c)) c);;
    let f := if startswith f (u "__") then f else u "__" ++ f in
    let! r := call_contract clock signer contract f kw env None None in
    modify (fun c => set_kcfg (with_bypass false (k_cfg c)) c);;
    ret r.
  (** client.py 56-67 quick_read, 69-82 quick_write; [args] are already strings (make_key applies str) *)
  Definition quick_read (contract variable : pystr) (args : list pystr) : st client pyval := on_kd (get (make_key contract variable args)).
  (** client.py 69-82 quick_write *)
  Definition quick_write (contract variable : pystr) (args : list pystr) (value : pyval) : st client unit :=
    on_m (on_w (set (make_key contract variable args) value false));; on_kd commit.
  (** client.py 343-347 *)
  Definition client_get_var (contract variable : pystr) (args : list pystr) : st client pyval := on_kd (get_var contract variable args).
  (** client.py 346-347 set_var *)
  Definition client_set_var (contract variable : pystr) (args : list pystr) (value : pyval) : st client unit := on_m (on_w (set_var contract variable args value)).
  (** client.py 207-213: seeding the submission contract when a client is made *)
  Definition seed_submission (code : pystr) : st client unit :=
    on_m (on_w (set_contract (l_marshal L) SUBMISSION code VNone (l_boot L) VNone));; on_kd commit.
  (** client.py 218-237 set_submission_contract; [code] is the content of the file *)
  Definition set_submission_contract (code : pystr) (do_commit : bool) : st client unit :=
    on_kd (get_contract SUBMISSION);;
    on_kd (delete_contract (l_ord L) SUBMISSION);;
    on_m (on_w (set_contract (l_marshal L) SUBMISSION code VNone (l_boot L) VNone));;
    (if do_commit then on_kd commit else ret tt);;
    on_kd (get_contract SUBMISSION);; ret tt.
  (** client.py 239-245 flush *)
  Definition client_flush (code : pystr) : st client unit :=
    modify (fun c => set_kmach (upd_d (fun v => flush_cache (flush_full v)) (k_mach c)) c);;
    set_submission_contract code true.
  (** client.py 336-341 get_contracts.  str.replace removes every occurrence of '.__code__'; [strip_code] is that function *)
  Definition CODE_SUFFIX := u ".__code__".
  (** client.py 340: key.replace('.__code__', ''), by at most [n] steps *)
  Fixpoint strip_code (n : nat) (k : pystr) : pystr :=
    match n with
    | O => k
    | S n' => match k with
              | [] => []
              | c :: k' => if startswith k CODE_SUFFIX then strip_code n' (skipn (List.length CODE_SUFFIX) k) else c :: strip_code n' k'
              end
    end.
  (** client.py 336-341 get_contracts *)
  Definition get_contracts : st client (list pystr) :=
    let! ks := on_kd (keys (l_ord L) []) in
    ret (map (fun k => strip_code (List.length k) k) (filter (fun k => endswith k CODE_SUFFIX) ks)).
End Client.

(** * A small world for the examples and counterexamples about execution *)
From Verif Require Import Model.Base Model.State Model.Dec Model.Time Model.Value Model.Encoder Model.Hdf5 Model.Runtime Model.Driver Model.Orm Model.Exec Model.Executor.
From Verif Require Import Spec.ExecSpec Properties.DriverProps Properties.OrmProps.

(** Contract code is a name here: compile and marshal do nothing, and the interpreter finds the behaviour in [mods].
    'os' is a loaded Python module with a function 'system'. *)
Definition os_module : modul := mkMod (PRet VNone) None [(u "system", mkFunc None (fun _ => PRet (VInt 0)))].
(** a / b with two decimal places, enough for the examples *)
Definition two_places (a b : Z) : pystr :=
  let r := (a * 100 / b)%Z in
  str_of_Z (r / 100) ++ u "." ++ str_of_Z (r / 10 mod 10) ++ str_of_Z (r mod 10).
Definition demo (mods : dict modul) : lang := mkLang
  (fun _ src => Ok src) (fun src => Ok src) (fun b => match dget b mods with Some m => Ok m | None => Err EValue end)
  (fun n => if str_eqb n (u "os") then Some os_module else None) (fun n => str_eqb n (u "os")) (fun n => str_eqb n (u "os"))
  (fun n => negb (has_char (ch ".") n)) (fun n => forallb (fun c => negb (N.leb 65 c && N.leb c 90))%bool n)
  (fun seed draws d => Ok (VStr seed)) os0 (fun l => l) (VInt 0) two_places.
(** contract [name] with code [src] and an owner *)
Definition deployed (name src : pystr) (owner : pyval) : dict pyval :=
  [(make_key name CODE_KEY [], VStr src); (make_key name COMPILED_KEY [], VBytes src)] ++
  (if is_none owner then [] else [(make_key name OWNER_KEY [], owner)]).
(** an idle machine whose pending writes are [ws] *)
Definition idle_mach (ws : dict pyval) : mach := mkS (mkW (set_writes ws (driver0 false [])) rt0) [] [] false [].
Definition cfg0 : cfg := mkCfg true (u "currency") (u "balances") false false.
Definition call_of (sender contract fn : string) : txn := mkTx (u sender) (u contract) (u fn) [] [] false 1000 20 (Some true).
(** a contract whose only code is the exported function 'f' *)
Definition only_f (name : pystr) (p : prog) : modul := mkMod (PRet VNone) None [(u "f", mkFunc (Some name) (fun _ => p))].
(** assignment to a Variable / Hash entry of a contract *)
Definition put (contract name : string) (v : pyval) (k : prog) : prog := PAct (ActVarSet (var_decl (u contract) (u name) None VNone) v) (fun _ => k).
Definition put_h (contract name key : string) (v : pyval) (k : prog) : prog :=
  PAct (ActHashSet (hash_decl (u contract) (u name) VNone) (one key) v) (fun _ => k).
Definition funded (who : string) (n : Z) : dict pyval := [(u "currency.balances:" ++ u who, VInt n)].
(** a line of contract code *)
Definition code_line (op : N) : line_event := mkLine true op 1000 1000.
(** a line of library code *)
Definition lib_line : line_event := mkLine false 0 0 0.

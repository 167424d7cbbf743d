(** * storage/driver.py *)
From Verif Require Import Model.Base Model.State Model.Dec Model.Time Model.Value Model.Encoder Model.Hdf5 Model.Runtime.

(** ** State *)
(** An event as recorded by LogEvent (orm.py 220-235) *)
Record event : Type := mkEvent {
  ev_contract : option pystr; ev_event : pystr; ev_signer : option pystr; ev_caller : option pystr;
  ev_indexed : dict pyval; ev_data : dict pyval }.
(** driver.py 31-42.  A Python None stored in a dict is [VNone].  pending_deltas: the
    'reads' component is never used and dropped.  [dv_cache] is a TTLCache: entries may vanish
    at any moment ([cache_drop] below).  Both directories are one [disk]: a file lives in
    run_state exactly when its name starts with '__' (driver.py 64-68). *)
Record driver : Type := mkDv {
  dv_deltas : list (Z * dict (option pyval * pyval)); dv_writes : dict pyval; dv_reads : dict pyval; dv_txn : dict pyval;
  dv_events : list event; dv_cache : dict pyval; dv_bypass : bool; dv_disk : disk }.
(** driver.py 32-42 __init__: a new driver on a directory *)
Definition driver0 (bypass : bool) (d : disk) : driver := mkDv [] [] [] [] [] [] bypass d.
(** record update: an assignment to one attribute of the driver (driver.py 32-42) *)
Definition set_deltas x v := mkDv x (dv_writes v) (dv_reads v) (dv_txn v) (dv_events v) (dv_cache v) (dv_bypass v) (dv_disk v).
(** record update: an assignment to one attribute of the driver (driver.py 32-42) *)
Definition set_writes x v := mkDv (dv_deltas v) x (dv_reads v) (dv_txn v) (dv_events v) (dv_cache v) (dv_bypass v) (dv_disk v).
(** record update: an assignment to one attribute of the driver (driver.py 32-42) *)
Definition set_reads x v := mkDv (dv_deltas v) (dv_writes v) x (dv_txn v) (dv_events v) (dv_cache v) (dv_bypass v) (dv_disk v).
(** record update: an assignment to one attribute of the driver (driver.py 32-42) *)
Definition set_txn x v := mkDv (dv_deltas v) (dv_writes v) (dv_reads v) x (dv_events v) (dv_cache v) (dv_bypass v) (dv_disk v).
(** record update: an assignment to one attribute of the driver (driver.py 32-42) *)
Definition set_events x v := mkDv (dv_deltas v) (dv_writes v) (dv_reads v) (dv_txn v) x (dv_cache v) (dv_bypass v) (dv_disk v).
(** record update: an assignment to one attribute of the driver (driver.py 32-42) *)
Definition set_cache x v := mkDv (dv_deltas v) (dv_writes v) (dv_reads v) (dv_txn v) (dv_events v) x (dv_bypass v) (dv_disk v).
(** record update: an assignment to one attribute of the driver (driver.py 32-42) *)
Definition set_disk x v := mkDv (dv_deltas v) (dv_writes v) (dv_reads v) (dv_txn v) (dv_events v) (dv_cache v) (dv_bypass v) x.
(** The driver and the runtime singleton it meters writes with *)
Record world : Type := mkW { w_drv : driver; w_rt : runtime }.
(** acting on a part of the state (no code) *)
Definition upd_drv (f : driver -> driver) (w : world) : world := mkW (f (w_drv w)) (w_rt w).
(** acting on a part of the state (no code) *)
Definition upd_rt (f : runtime -> runtime) (w : world) : world := mkW (w_drv w) (f (w_rt w)).
(** acting on a part of the state (no code) *)
Definition on_rt {A} (m : st runtime A) : st world A := fun w => let (x, r) := m (w_rt w) in (x, mkW (w_drv w) r).
(** acting on a part of the state (no code) *)
Definition on_drv {A} (m : st driver A) : st world A := fun w => let (x, v) := m (w_drv w) in (x, mkW v (w_rt w)).
(** acting on a part of the state (no code) *)
Definition on_disk {A} (m : st disk A) : st driver A := fun v => let (x, d) := m (dv_disk v) in (x, set_disk d v).
(** Python: v is None *)
Definition is_none (v : pyval) : bool := match v with VNone => true | _ => false end.
(** dict.get(k): None when absent *)
Definition pget (k : pystr) (d : dict pyval) : pyval := match dget k d with Some v => v | None => VNone end.

(** ** Keys *)
(** driver.py 48-61 __parse_key *)
Definition parse_key (key : pystr) : pystr * pystr :=
  let '(p0, rest) := match split1 (ch ".") key with Some (a, b) => (a, Some b) | None => (key, None) end in
  let filename := match split1 (ch ":") p0 with Some (a, _) => a | None => p0 end in
  let variable := match rest with Some b => b | None => p0 end in
  (filename, replace_char (ch ":") SLASH variable).
(** driver.py 73-75 is_file.  Path.is_file re-raises ENAMETOOLONG. *)
Definition is_file (d : disk) (fn : pystr) : result bool :=
  if (str_eqb fn [] || has_char SLASH fn)%bool then Ok false
  else match utf8_len fn with
       | Ok n => if Nat.leb n 255 then Ok (dmem fn d) else Err EOS
       | Err _ => Ok false
       end.

(** ** Reading *)
(** driver.py 164-170 value_from_disk *)
Definition value_from_disk (key : pystr) (d : disk) : result pyval :=
  let '(fn, g) := parse_key key in get_value_from_disk d fn g.
(** driver.py 102-120 find *)
Definition find (key : pystr) (v : driver) : result pyval :=
  if dv_bypass v then value_from_disk key (dv_disk v)
  else
    let x := pget key (dv_writes v) in
    if negb (is_none x) then Ok x
    else let x := pget key (dv_cache v) in
      if negb (is_none x) then Ok x else value_from_disk key (dv_disk v).
(** driver.py 77-88 get, save=True (no caller passes False) *)
Definition get (key : pystr) : st driver pyval := fun v =>
  match find key v with
  | Err e => (Err e, v)
  | Ok x => (Ok x, if is_none (pget key (dv_reads v)) then set_reads (dset key x (dv_reads v)) v else v)
  end.

(** ** Writing *)
(** str(d) of a raw decimal.Decimal *)
Definition str_of_dec (d : dec) : pystr :=
  match d with DFin x => dec_str x | DInf n => if n then u "-Infinity" else u "Infinity" | DNaN => u "NaN" end.
(** driver.py 95-96: decimals and floats become ContractingDecimal *)
Definition coerce (value : pyval) : result pyval :=
  match value with
  | VFloat r => do d <- cd_of_str r; Ok (VDec d)
  | VDecimal x => do d <- cd_of_str (str_of_dec x); Ok (VDec d)
  | _ => Ok value
  end.
(** driver.py 91-99 set, after the metering call of line 92 *)
Definition set_body (key : pystr) (value : pyval) (is_txn_write : bool) : st driver unit :=
  let! r := gets (fun v => pget key (dv_reads v)) in
  (if is_none r then (get key;; ret tt) else ret tt);;
  let! value := lift (coerce value) in
  modify (fun v => set_writes (dset key value (dv_writes v)) v);;
  if is_txn_write then modify (fun v => set_txn (dset key value (dv_txn v)) v) else ret tt.
(** driver.py 91-99 set: runtime.rt.deduct_write, then the rest *)
Definition set (key : pystr) (value : pyval) (is_txn_write : bool) : st world unit :=
  let! (kl, vl) := lift (encode_kv_len key value) in
  on_rt (deduct_write kl vl);;
  on_drv (set_body key value is_txn_write).
(** driver.py 320-324 delete *)
Definition delete (key : pystr) : st world unit := set key VNone false.
(** driver.py 214-228 set_var, get_var *)
Definition set_var (contract variable : pystr) (args : list pystr) (value : pyval) : st world unit :=
  set (make_key contract variable args) value false.
(** driver.py 222-228 get_var *)
Definition get_var (contract variable : pystr) (args : list pystr) : st driver pyval :=
  get (make_key contract variable args).
(** driver.py 22-28 *)
Definition CODE_KEY := u "__code__".
(** driver.py 22-28 *)
Definition OWNER_KEY := u "__owner__".
(** driver.py 22-28 *)
Definition TIME_KEY := u "__submitted__".
(** driver.py 22-28 *)
Definition COMPILED_KEY := u "__compiled__".
(** driver.py 22-28 *)
Definition DEVELOPER_KEY := u "__developer__".
(** driver.py 230-243 *)
Definition get_owner (name : pystr) : st driver pyval :=
  let! o := get_var name OWNER_KEY [] in
  ret (match o with VStr [] => VNone | _ => o end).
(** driver.py 239-240 get_compiled *)
Definition get_compiled (name : pystr) : st driver pyval := get_var name COMPILED_KEY [].
(** driver.py 242-243 get_contract *)
Definition get_contract (name : pystr) : st driver pyval := get_var name CODE_KEY [].
(** driver.py 245-262 set_contract.  [compile] is compile + marshal.dumps. *)
Definition set_contract (compile : pystr -> result (list N)) (name code : pystr) (owner timestamp developer : pyval) : st world unit :=
  let! c := on_drv (get_contract name) in
  if is_none c then
    let! blob := lift (compile code) in
    set_var name CODE_KEY [] (VStr code);;
    set_var name COMPILED_KEY [] (VBytes blob);;
    set_var name OWNER_KEY [] owner;;
    set_var name TIME_KEY [] timestamp;;
    set_var name DEVELOPER_KEY [] developer
  else ret tt.

(** ** Listing *)
(** driver.py 123-124, 148-162 iter_from_disk with length 0 (the only use) *)
Definition iter_from_disk (prefix : pystr) (d : disk) : result (list pystr) :=
  let '(fn, _) := parse_key prefix in
  do b <- is_file d fn;
  Ok (if b then str_sort (filter (fun k => startswith k prefix) (get_groups d fn)) else []).
(** driver.py 70-71, 126-146 keys_from_disk *)
Fixpoint collect (prefix : pystr) (length : nat) (l acc : list pystr) : list pystr :=
  match l with
  | [] => acc
  | k :: l' =>
      let acc := if (startswith k prefix && negb (str_mem k acc))%bool then k :: acc else acc in
      if (Nat.ltb 0 length && Nat.leb length (List.length acc))%bool then acc else collect prefix length l' acc
  end.
(** driver.py 126-146 keys_from_disk *)
Definition keys_from_disk (prefix : pystr) (length : nat) (d : disk) : list pystr :=
  str_sort (collect prefix length (flat_map (get_groups d) (str_sort (dkeys d))) []).
(** driver.py 172-198 items.  [ord] is the iteration order of a Python set of strings, which
    depends on the interpreter's hash seed. *)
Definition live (prefix : pystr) (d : dict pyval) : dict pyval :=
  filter (fun kv => startswith (fst kv) prefix && negb (is_none (snd kv))) d.
(** driver.py 172-199 items *)
Definition items (ord : list pystr -> list pystr) (prefix : pystr) : st driver (dict pyval) :=
  let! v := gets (fun v => v) in
  let its := dupdate (dupdate [] (live prefix (dv_writes v))) (live prefix (dv_cache v)) in
  let! db := lift (iter_from_disk prefix (dv_disk v)) in
  let! extra := mapm (fun k => let! x := get k in ret (k, x)) (ord (filter (fun k => negb (str_mem k (dkeys its))) db)) in
  ret (dupdate its extra).
(** driver.py 201-206 keys, values (values runs items twice) *)
Definition keys ord prefix : st driver (list pystr) := let! i := items ord prefix in ret (dkeys i).
(** driver.py 204-206 values *)
Definition values ord prefix : st driver (list pyval) :=
  items ord prefix;; let! i := items ord prefix in ret (map snd i).
(** driver.py 283-290 delete_key_from_disk *)
Definition delete_key_from_disk (key : pystr) : st driver unit :=
  let '(fn, g) := parse_key key in
  if Nat.ltb (List.length fn) 255 then on_disk (h5_delete fn g) else ret tt.
(** driver.py 264-275 delete_contract *)
Definition delete_contract ord (name : pystr) : st driver unit :=
  let! ks := keys ord name in
  foreach (fun k =>
    modify (fun v => if is_none (pget k (dv_cache v)) then v else set_cache (ddel k (dv_cache v)) v);;
    modify (fun v => if is_none (pget k (dv_writes v)) then v else set_writes (ddel k (dv_writes v)) v);;
    delete_key_from_disk k) ks.
(** driver.py 277-281 get_contract_files *)
Definition get_contract_files (v : driver) : list pystr :=
  str_sort (filter (fun fn => negb (startswith fn (u "__"))) (dkeys (dv_disk v))).

(** ** Commit, hard_apply, rollback *)
(** driver.py 352-358, one pending write *)
Definition commit_one (kv : pystr * pyval) : st disk unit :=
  let '(fn, g) := parse_key (fst kv) in
  if is_none (snd kv) then h5_delete fn g else set_value_to_disk fn g (snd kv) None.
(** driver.py 352-358: the loop of commit *)
Definition commit_all (l : dict pyval) : st disk unit := foreach commit_one l.
(** driver.py 348-362 commit *)
Definition commit : st driver unit :=
  let! v := gets (fun v => v) in
  on_disk (commit_all (dv_writes v));;
  modify (fun v => set_reads [] (set_writes [] (set_cache [] v))).
(** insertion into pending_deltas, and sorting by time *)
Fixpoint zset {A} (k : Z) (a : A) (l : list (Z * A)) : list (Z * A) :=
  match l with [] => [(k, a)] | (j, b) :: l' => if Z.eqb k j then (j, a) :: l' else (j, b) :: zset k a l' end.
(** driver.py 385: sorted(self.pending_deltas.items()): by time, which is unique *)
Fixpoint zinsert {A} (x : Z * A) (l : list (Z * A)) : list (Z * A) :=
  match l with [] => [x] | y :: l' => if Z.ltb (fst y) (fst x) then y :: zinsert x l' else x :: l end.
(** driver.py 385: sorted(self.pending_deltas.items()): by time, which is unique *)
Definition zsort {A} (l : list (Z * A)) : list (Z * A) := fold_right zinsert [] l.
(** the entries visited by the loop of driver.py 385-394: up to and including [nanos] *)
Fixpoint upto {A} (n : Z) (l : list (Z * A)) : list (Z * A) :=
  match l with [] => [] | x :: l' => if Z.eqb (fst x) n then [x] else x :: upto n l' end.
(** driver.py 387-390: one write of hard_apply *)
Definition apply_one (nanos : Z) (kd : pystr * (option pyval * pyval)) : st disk unit :=
  let '(fn, g) := parse_key (fst kd) in set_value_to_disk fn g (snd (snd kd)) (Some nanos).
(** driver.py 365-397 hard_apply *)
Definition hard_apply (nanos : Z) : st driver unit :=
  modify (fun v =>
    let deltas := fold_left (fun acc kv => dset (fst kv) (dget (fst kv) (dv_reads v), snd kv) acc) (dv_writes v) [] in
    let cache := dupdate (dv_cache v) (dv_writes v) in
    set_writes [] (set_reads [] (set_cache cache (set_deltas (zset nanos deltas (dv_deltas v)) v))));;
  let! v := gets (fun v => v) in
  let todo := upto nanos (zsort (dv_deltas v)) in
  on_disk (foreach (fun nd => foreach (apply_one nanos) (snd nd)) todo);;
  modify (fun v => set_deltas (filter (fun x => negb (existsb (fun y => Z.eqb (fst x) (fst y)) todo)) (dv_deltas v)) v).
(** driver.py 326-346 rollback *)
Fixpoint downto {A} (n : Z) (l : list (Z * A)) : list (Z * A) :=
  match l with [] => [] | x :: l' => if Z.ltb (fst x) n then [] else x :: downto n l' end.
(** a missing old value is None (driver.py 372: pending_reads.get(k)) *)
Definition of_opt (o : option pyval) : pyval := match o with Some v => v | None => VNone end.
(** driver.py 326-346 rollback *)
Definition rollback (nanos : option Z) : st driver unit :=
  match nanos with
  | None => modify (fun v => set_deltas [] (set_writes [] (set_reads [] (set_cache [] v))))
  | Some n => modify (fun v =>
      let todo := downto n (rev (zsort (dv_deltas v))) in
      let cache := fold_left (fun c nd => fold_left (fun c kd => dset (fst kd) (of_opt (fst (snd kd))) c) (snd nd) c) todo (dv_cache v) in
      set_deltas (filter (fun x => negb (existsb (fun y => Z.eqb (fst x) (fst y)) todo)) (dv_deltas v)) (set_cache cache v))
  end.
(** driver.py 292-318 flush_cache, flush_disk, flush_file, flush_full *)
Definition flush_cache (v : driver) : driver := mkDv [] [] [] [] [] [] (dv_bypass v) (dv_disk v).
(** driver.py 300-303 flush_disk *)
Definition flush_disk (v : driver) : driver := set_disk [] v.
(** driver.py 305-308 flush_file *)
Definition flush_file (fn : pystr) (v : driver) : driver := set_disk (ddel fn (dv_disk v)) v.
(** driver.py 313-318 flush_full *)
Definition flush_full (v : driver) : driver := flush_cache (flush_disk v).
(** driver.py 310-311, 432-439 *)
Definition set_event (e : event) : st driver unit := modify (fun v => set_events (dv_events v ++ [e]) v).
(** driver.py 432-436 clear_transaction_writes *)
Definition clear_transaction_writes (v : driver) : driver := set_txn [] v.
(** driver.py 438-439 clear_events *)
Definition clear_events (v : driver) : driver := set_events [] v.
(** driver.py 400-413 get_all_contract_state (file order sorted; the result is a dict) *)
Definition get_all_contract_state : st driver (dict pyval) :=
  let! v := gets (fun v => v) in
  let! ls := mapm (fun fn =>
      let! ks := lift (get_all_keys_from_file (dv_disk v) fn) in
      mapm (fun k => let full := fn ++ u "." ++ k in let! x := get full in ret (full, x)) ks) (get_contract_files v) in
  ret (dupdate [] (List.concat ls)).
(** driver.py 416-429 get_run_state: only the groups directly below the root.  Line 423 turns the file's path into a path
    again: that does nothing to an absolute path, but if [storage_home] is relative it names a file below contract_state,
    which does not exist. *)
Definition get_run_state (absolute : bool) (v : driver) : result (dict pyval) :=
  do ls <- seqr (fun fn => seqr (fun k => do x <- get_value_from_disk (dv_disk v) fn k; Ok (fn ++ u "." ++ k, x)) (if absolute then get_groups (dv_disk v) fn else []))
    (str_sort (filter (fun fn => startswith fn (u "__")) (dkeys (dv_disk v))));
  Ok (dupdate [] (List.concat ls)).

(** ** The time-limited cache *)
(** Entries may disappear from a TTLCache at any time (age, or more than 1000 entries). *)
Definition cache_drop (p : pystr -> bool) (v : driver) : driver := set_cache (filter (fun kv => negb (p (fst kv))) (dv_cache v)) v.

(** * What the storage properties talk about *)
From Verif Require Import Model.Base Model.State Model.Value Model.Encoder Model.Hdf5 Model.Runtime Model.Driver.

(** What a new Driver on the directory reads under a key *)
Definition fresh_read (d : disk) (k : pystr) : result pyval := fst (get k (driver0 false d)).
(** ... and the block number stored with it *)
Definition stored_block (d : disk) (k : pystr) : result (option Z) := let '(fn, g) := parse_key k in get_block d fn g.

(** The place of a key: a file, and a path of non-empty names in it *)
Definition place : Type := (pystr * gpath)%type.
Definition place_of (k : pystr) : place := let '(fn, g) := parse_key k in (fn, norm g).
Definition same_place (k k' : pystr) : bool :=
  (str_eqb (fst (place_of k)) (fst (place_of k')) && gpath_eqb (snd (place_of k)) (snd (place_of k')))%bool.
(** Keys that name an entry: the part after the dot is not empty *)
Definition key_ok (k : pystr) : Prop := snd (parse_key k) <> [].
(** ... and whose file can be created *)
Definition key_writable (k : pystr) : Prop := key_ok k /\ name_ok (fst (parse_key k)) = true.

(** The last of a sequence of writes that goes to the place of k *)
Fixpoint last_write (k : pystr) (l : dict pyval) : option pyval :=
  match l with
  | [] => None
  | (k', x) :: l' => match last_write k l' with
                     | Some y => Some y
                     | None => if same_place k k' then Some x else None
                     end
  end.
(** What is read back of a stored value; None marks a deletion *)
Definition stored_form (x : pyval) : result pyval :=
  match x with VNone => Ok VNone | _ => do t <- encode x; decode (Some t) end.

(** ** Operations that do not commit *)
Inductive op : Type :=
| OGet (k : pystr)
| OSet (k : pystr) (v : pyval) (txn : bool)
| ODelete (k : pystr)
| OItems (ord : list pystr -> list pystr) (prefix : pystr)
| OExpire (p : pystr -> bool).            (* the cache drops entries *)
Definition run_op (o : op) (w : world) : world :=
  match o with
  | OGet k => snd (on_drv (get k) w)
  | OSet k v b => snd (set k v b w)
  | ODelete k => snd (delete k w)
  | OItems ord p => snd (on_drv (items ord p) w)
  | OExpire p => upd_drv (cache_drop p) w
  end.
Definition run_ops (l : list op) (w : world) : world := fold_left (fun w o => run_op o w) l w.
Definition writes_key (k : pystr) (o : op) : bool :=
  match o with OSet k' _ _ | ODelete k' => str_eqb k k' | _ => false end.

(** ** Histories with commits *)
(** Keys that all have different places *)
Definition separate (U : pystr -> Prop) : Prop :=
  forall k k', U k -> U k' -> same_place k k' = true -> k = k'.
(** The disk if the process stops after n per-key updates of commit() *)
Definition crashed (n : nat) (v : driver) : disk := snd (commit_all (firstn n (dv_writes v)) (dv_disk v)).

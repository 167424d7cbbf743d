(** * storage/hdf5.py under several threads

    The same functions as in Model/Hdf5.v, cut at every call of h5py and of the lock, so that
    other threads may run in between.  Library behaviour assumed: a call of h5py is atomic
    (h5py holds its global lock [phil] during each call); threads of one process that open the
    same file share its state; opening a file for writing may fail with OSError as long as a
    reader has it open (HDF5 refuses to reopen a file that is open read-only), opening it for
    reading never does; [file_locks] creates the lock of a path at most once (defaultdict
    with a builtin factory, under the GIL).  Threads call these functions with str paths, one
    path per file.  Not modelled: other processes, signals and other asynchronous exceptions. *)
From Verif Require Import Model.Base Model.State Model.Value Model.Encoder Model.Hdf5.

(** hdf5.py 54 set, 102 delete, 22 get_value, with the path and the group *)
Inductive op : Type :=
| OSet (fn g : pystr) (v : option pystr) (b : option Z)
| ODelete (fn g : pystr)
| ORead (fn g : pystr).
(** the path and the group an operation was called with (hdf5.py 22, 54, 102) *)
Definition op_file (o : op) : pystr := match o with OSet fn _ _ _ | ODelete fn _ | ORead fn _ => fn end.
(** the path and the group an operation was called with (hdf5.py 22, 54, 102) *)
Definition op_group (o : op) : pystr := match o with OSet _ g _ _ | ODelete _ g | ORead _ g => g end.

(** ** What a writer does while it holds the lock *)
(** hdf5.py 62-66, 91-98, 106-113: the calls of h5py.  [MCheck] skips the next call when the attribute is missing *)
Inductive micro : Type :=
| MRequire | MCheckValue | MDelValue | MSetValue (v : pystr) | MCheckBlock | MDelBlock | MSetBlock (b : Z).
(** hdf5.py 87-98 _write_attr_to_file *)
Definition write_value_code (v : option pystr) : list micro :=
  MRequire :: MCheckValue :: MDelValue :: match v with Some x => [MSetValue x] | None => [] end.
(** hdf5.py 87-98 _write_attr_to_file for the block number, cut at every h5py call *)
Definition write_block_code (b : option Z) : list micro :=
  MRequire :: MCheckBlock :: MDelBlock :: match b with Some x => [MSetBlock x] | None => [] end.
(** hdf5.py 62-66 (set), 106-110 (delete): the body of "with h5py.File(file_path, 'a')" *)
Definition body (o : op) : list micro :=
  match o with
  | OSet _ _ v b => write_value_code v ++ write_block_code b
  | ODelete _ _ => [MDelValue; MDelBlock]
  | ORead _ _ => []
  end.
(** One call on an open file: what remains to be called and the new file, or the exception and the file.
    A missing group or attribute is a KeyError, an empty group name a ValueError *)
Definition micro_step (g : pystr) (m : micro) (rest : list micro) (f : hfile) : result (list micro) * hfile :=
  let p := norm g in
  if str_eqb g [] then (Err EValue, f)
  else match m with
       | MRequire => (Ok rest, require_group f p)
       | _ =>
         match fget p f with
         | None => (Err EKey, f)
         | Some (mkAttrs v b) =>
           match m with
           | MCheckValue => (Ok (match v with Some _ => rest | None => tl rest end), f)
           | MDelValue => match v with Some _ => (Ok rest, fset p (mkAttrs None b) f) | None => (Err EKey, f) end
           | MSetValue x => (Ok rest, fset p (mkAttrs (Some x) b) f)
           | MCheckBlock => (Ok (match b with Some _ => rest | None => tl rest end), f)
           | MDelBlock => match b with Some _ => (Ok rest, fset p (mkAttrs v None) f) | None => (Err EKey, f) end
           | MSetBlock x => (Ok rest, fset p (mkAttrs v (Some x)) f)
           | MRequire => (Ok rest, f)
           end
         end
       end.
(** hdf5.py 111-112: delete catches KeyError *)
Definition caught (o : op) (e : exn) : result unit :=
  match o, e with ODelete _ _, EKey => Ok tt | _, _ => Err e end.

(** ** Threads *)
Inductive pc : Type :=
| Ready                                   (* between two operations *)
| Locked (o : op)                         (* hdf5.py 60, 104: the lock is taken, the file not yet open *)
| Inside (o : op) (rest : list micro)     (* in the body *)
| Leaving (o : op) (ans : result unit)    (* the body is over: the file is still open *)
| Closed (o : op) (ans : result unit)     (* the file is closed: "finally: lock.release()" is next *)
| Reading (o : op)                        (* hdf5.py 32: open for reading *)
| Found (o : op).                         (* hdf5.py 34: f[group_name] found *)
(** [th_done] are the operations that are over, latest first, with their answers: of writers Ok None or the exception *)
Record thread : Type := mkThread { th_todo : list op; th_pc : pc; th_done : list (op * result (option pystr)) }.
(** [sh_log]: the operations whose lock was taken, in that order, with their answer once they released it (ghost) *)
Record shared : Type := mkShared {
  sh_disk : disk; sh_locks : dict (option nat); sh_threads : list thread; sh_log : list (nat * op * option (result unit)) }.
(** several threads about to run their operations (no code) *)
Definition start (d : disk) (programs : list (list op)) : shared :=
  mkShared d [] (map (fun l => mkThread l Ready []) programs) [].

(** the owner of the file's lock (hdf5.py 17-19 get_file_lock) *)
Definition holder (fn : pystr) (s : shared) : option nat := match dget fn (sh_locks s) with Some h => h | None => None end.
(** record update of the shared state (no code) *)
Definition set_disk_of d s := mkShared d (sh_locks s) (sh_threads s) (sh_log s).
(** record update of the shared state (no code) *)
Definition set_lock fn h s := mkShared (sh_disk s) (dset fn h (sh_locks s)) (sh_threads s) (sh_log s).
(** record update of the shared state (no code) *)
Definition set_shlog l s := mkShared (sh_disk s) (sh_locks s) (sh_threads s) l.
(** record update of the shared state (no code) *)
Fixpoint upd_nth {A} (n : nat) (x : A) (l : list A) : list A :=
  match n, l with
  | _, [] => []
  | O, _ :: l' => x :: l'
  | S n', y :: l' => y :: upd_nth n' x l'
  end.
(** record update of the shared state (no code) *)
Definition set_thread n t s := mkShared (sh_disk s) (sh_locks s) (upd_nth n t (sh_threads s)) (sh_log s).
(** the entry of [n] that has no answer yet *)
Fixpoint answer_log (n : nat) (ans : result unit) (l : list (nat * op * option (result unit))) : list (nat * op * option (result unit)) :=
  match l with
  | [] => []
  | (m, o, a) :: l' => match a with
                       | None => if Nat.eqb m n then (m, o, Some ans) :: l' else (m, o, a) :: answer_log n ans l'
                       | Some _ => (m, o, a) :: answer_log n ans l'
                       end
  end.
(** a thread goes on, answers, starts its next operation (no code) *)
Definition goto (t : thread) (p : pc) : thread := mkThread (th_todo t) p (th_done t).
(** a thread goes on, answers, starts its next operation (no code) *)
Definition finish (t : thread) (o : op) (a : result (option pystr)) : thread := mkThread (th_todo t) Ready ((o, a) :: th_done t).
(** a thread goes on, answers, starts its next operation (no code) *)
Definition next (t : thread) (l : list op) (p : pc) : thread := mkThread l p (th_done t).
(** hdf5.py 54 set and 102 delete take the lock; 22 get_value does not *)
Definition writes (o : op) : bool := match o with ORead _ _ => false | _ => true end.
(** a reader has the file open *)
Definition being_read (fn : pystr) (s : shared) : Prop :=
  exists n t o, nth_error (sh_threads s) n = Some t /\ (th_pc t = Reading o \/ th_pc t = Found o) /\ op_file o = fn.

(** One step of thread [n] *)
Inductive step (n : nat) (s : shared) : shared -> Prop :=
(** hdf5.py 59-60, 103-104: lock.acquire succeeds ... *)
| StAcquire t o l : nth_error (sh_threads s) n = Some t -> th_pc t = Ready -> th_todo t = o :: l -> writes o = true -> holder (op_file o) s = None ->
    step n s (set_shlog (sh_log s ++ [(n, o, None)]) (set_lock (op_file o) (Some n) (set_thread n (next t l (Locked o)) s)))
(** ... or the lock is taken for more than the timeout: TimeoutError, an OSError (hdf5.py 70-71, 114-115) *)
| StTimeout t o l m : nth_error (sh_threads s) n = Some t -> th_pc t = Ready -> th_todo t = o :: l -> writes o = true -> holder (op_file o) s = Some m ->
    step n s (set_thread n (finish (next t l Ready) o (Err EOS)) s)
(** hdf5.py 62, 106: h5py.File(file_path, 'a') creates a missing file ... *)
| StOpen t o : nth_error (sh_threads s) n = Some t -> th_pc t = Locked o -> name_ok (op_file o) = true ->
    step n s (set_disk_of (dset (op_file o) (open_a (sh_disk s) (op_file o)) (sh_disk s)) (set_thread n (goto t (Inside o (body o))) s))
(** ... or raises OSError: a bad name, or a reader has the file open *)
| StNoOpen t o : nth_error (sh_threads s) n = Some t -> th_pc t = Locked o -> (name_ok (op_file o) = false \/ being_read (op_file o) s) ->
    step n s (set_thread n (goto t (Closed o (Err EOS))) s)
(** one call of the body *)
| StCall t o m rest f r f' : nth_error (sh_threads s) n = Some t -> th_pc t = Inside o (m :: rest) -> dget (op_file o) (sh_disk s) = Some f ->
    micro_step (op_group o) m rest f = (r, f') ->
    step n s (set_disk_of (dset (op_file o) f' (sh_disk s))
               (set_thread n (goto t (match r with Ok rest' => Inside o rest' | Err e => Leaving o (caught o e) end)) s))
(** the end of the body *)
| StEnd t o : nth_error (sh_threads s) n = Some t -> th_pc t = Inside o [] ->
    step n s (set_thread n (goto t (Leaving o (Ok tt))) s)
(** the file is closed *)
| StClose t o a : nth_error (sh_threads s) n = Some t -> th_pc t = Leaving o a ->
    step n s (set_thread n (goto t (Closed o a)) s)
(** hdf5.py 67-69, 113-114: finally: lock.release() *)
| StRelease t o a : nth_error (sh_threads s) n = Some t -> th_pc t = Closed o a ->
    step n s (set_shlog (answer_log n a (sh_log s)) (set_lock (op_file o) None (set_thread n (finish t o (mapr (fun _ => None) a)) s)))
(** hdf5.py 31-40: a reader takes no lock.  h5py.File(file_path, 'r') ... *)
| StReadOpen t o l f : nth_error (sh_threads s) n = Some t -> th_pc t = Ready -> th_todo t = o :: l -> writes o = false -> open_r (sh_disk s) (op_file o) = Some f ->
    step n s (set_thread n (next t l (Reading o)) s)
(** ... or OSError: None *)
| StReadMissing t o l : nth_error (sh_threads s) n = Some t -> th_pc t = Ready -> th_todo t = o :: l -> writes o = false -> open_r (sh_disk s) (op_file o) = None ->
    step n s (set_thread n (finish (next t l Ready) o (Ok None)) s)
(** f[group_name]: ValueError, KeyError, or found *)
| StReadGroup t o f : nth_error (sh_threads s) n = Some t -> th_pc t = Reading o -> open_r (sh_disk s) (op_file o) = Some f ->
    step n s (set_thread n (if str_eqb (op_group o) [] then finish t o (Err EValue)
                            else match fget (norm (op_group o)) f with Some _ => goto t (Found o) | None => finish t o (Ok None) end) s)
(** .attrs[attr_name], decode *)
| StReadAttr t o f a : nth_error (sh_threads s) n = Some t -> th_pc t = Found o -> open_r (sh_disk s) (op_file o) = Some f -> fget (norm (op_group o)) f = Some a ->
    step n s (set_thread n (finish t o (Ok (at_value a))) s).
(** any schedule *)
Inductive steps : shared -> shared -> Prop :=
| StepsRefl s : steps s s
| StepsTrans s n s' s'' : steps s s' -> step n s' s'' -> steps s s''.

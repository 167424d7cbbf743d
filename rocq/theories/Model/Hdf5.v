(** * storage/hdf5.py over h5py

    A file is a tree of groups, kept as a finite map from group paths to the two attributes
    the code uses.  Library behaviour assumed (h5py 3 / HDF5): group names are split at '/',
    empty and '.' components are dropped; an empty name is a ValueError; a missing group or
    attribute is a KeyError; mode 'a' creates a missing file; names are listed in code-point
    order.  File names are relative to one directory: an empty name (the directory itself), a
    name with '/' (no such subdirectory) or one of more than 255 bytes cannot be opened
    (OSError).  Not modelled: HDF5 corruption, NUL characters in names, absolute paths (a name
    starting with '/' is treated as a missing subdirectory), other files put into the
    directories by hand. *)
From Verif Require Import Model.Base Model.State Model.Value Model.Encoder.

(** hdf5.py 12-14: the two attributes of a group (ATTR_VALUE, ATTR_BLOCK) *)
Record attrs : Type := mkAttrs { at_value : option pystr; at_block : option Z }.
(** a new group has no attributes (h5py require_group, hdf5.py 92) *)
Definition no_attrs : attrs := mkAttrs None None.
(** a group of a file: the names on the way to it *)
Definition gpath : Type := list pystr.
(** equality of paths (HDF5) *)
Fixpoint gpath_eqb (a b : gpath) : bool :=
  match a, b with
  | [], [] => true
  | x :: a', y :: b' => str_eqb x y && gpath_eqb a' b'
  | _, _ => false
  end.
(** the groups of a file with their attributes *)
Definition hfile : Type := list (gpath * attrs).
(** A new file has only the root group. *)
Definition new_file : hfile := [([], no_attrs)].
(** h5py: file[path] (hdf5.py 34) *)
Fixpoint fget (p : gpath) (f : hfile) : option attrs :=
  match f with
  | [] => None
  | (q, a) :: f' => if gpath_eqb p q then Some a else fget p f'
  end.
(** h5py: the attributes of a group are replaced (hdf5.py 87-98) *)
Fixpoint fset (p : gpath) (a : attrs) (f : hfile) : hfile :=
  match f with
  | [] => [(p, a)]
  | (q, b) :: f' => if gpath_eqb p q then (q, a) :: f' else (q, b) :: fset p a f'
  end.
(** Resolution of a group name *)
Definition SLASH : N := 47.
(** h5py: the path a group name stands for: empty parts and '.' are dropped (hdf5.py 34, 92) *)
Definition norm (name : pystr) : gpath :=
  filter (fun c => negb (str_eqb c []) && negb (str_eqb c (u "."))) (split_all SLASH name).

(** The directory: file name -> content *)
Definition disk : Type := dict hfile.
(** a name under which a file can exist in the directory (os) *)
Definition name_ok (fn : pystr) : bool :=
  (negb (str_eqb fn []) && negb (has_char SLASH fn) &&
   match utf8_len fn with Ok n => Nat.leb n 255 | Err _ => false end)%bool.
(** hdf5.py 31-32: h5py.File(path, 'r'), None if there is no such file *)
Definition open_r (d : disk) (fn : pystr) : option hfile := if name_ok fn then dget fn d else None.
(** hdf5.py 62: h5py.File(path, 'a') *)
Definition open_a (d : disk) (fn : pystr) : hfile := match dget fn d with Some f => f | None => new_file end.

(** hdf5.py 30-40 get_attr (22-27 get_value, get_block) *)
Definition get_attr {A} (sel : attrs -> option A) (d : disk) (fn g : pystr) : result (option A) :=
  match open_r d fn with
  | None => Ok None
  | Some f => if str_eqb g [] then Err EValue
              else match fget (norm g) f with Some a => Ok (sel a) | None => Ok None end
  end.
(** hdf5.py 22-23 get_value *)
Definition get_value : disk -> pystr -> pystr -> result (option pystr) := get_attr at_value.
(** hdf5.py 26-27 get_block *)
Definition get_block : disk -> pystr -> pystr -> result (option Z) := get_attr at_block.
(** hdf5.py 131-132 get_value_from_disk *)
Definition get_value_from_disk (d : disk) (fn g : pystr) : result pyval :=
  do t <- get_value d fn g; decode t.

(** hdf5.py 44-50 get_groups: list(f.keys()), the names directly below the root *)
Definition top_names (f : hfile) : list pystr :=
  flat_map (fun pa => match fst pa with [n] => [n] | _ => [] end) f.
(** hdf5.py 44-50 get_groups *)
Definition get_groups (d : disk) (fn : pystr) : list pystr :=
  match open_r d fn with None => [] | Some f => str_sort (top_names f) end.

(** hdf5.py 136-152 get_all_keys_from_file: every group below the root, '/' shown as ':' *)
Definition all_keys (f : hfile) : list pystr :=
  str_sort (flat_map (fun pa => match fst pa with [] => [] | p => [join (u ":") p] end) f).
(** hdf5.py 136-152 get_all_keys_from_file *)
Definition get_all_keys_from_file (d : disk) (fn : pystr) : result (list pystr) :=
  match open_r d fn with None => Err EOS | Some f => Ok (map (replace_char SLASH 58) (all_keys f)) end.

(** h5py require_group: creates the group and the groups above it *)
Fixpoint prefixes (p : gpath) : list gpath :=
  match p with [] => [[]] | x :: p' => [] :: map (cons x) (prefixes p') end.
(** h5py require_group, one level (hdf5.py 92) *)
Definition ensure (f : hfile) (p : gpath) : hfile :=
  match fget p f with Some _ => f | None => fset p no_attrs f end.
(** h5py require_group (hdf5.py 92) *)
Definition require_group (f : hfile) (p : gpath) : hfile := fold_left ensure (prefixes p) f.
(** hdf5.py 87-98 _write_attr_to_file, for the two attributes *)
Definition attrs_at (f : hfile) (p : gpath) : attrs := match fget p f with Some a => a | None => no_attrs end.
(** hdf5.py 87-98 _write_attr_to_file for the value *)
Definition write_value (f : hfile) (p : gpath) (v : option pystr) : hfile :=
  let f := require_group f p in fset p (mkAttrs v (at_block (attrs_at f p))) f.
(** hdf5.py 87-98 _write_attr_to_file for the block number *)
Definition write_block (f : hfile) (p : gpath) (b : option Z) : hfile :=
  let f := require_group f p in fset p (mkAttrs (at_value (attrs_at f p)) b) f.
(** hdf5.py 54-71 set (the lock is free: one thread; concurrency is in Model/Locks.v) *)
Definition h5_set (fn g : pystr) (v : option pystr) (b : option Z) : st disk unit := fun d =>
  if negb (name_ok fn) then (Err EOS, d)
  else let f := open_a d fn in
    if str_eqb g [] then (Err EValue, dset fn f d)
    else (Ok tt, dset fn (write_block (write_value f (norm g) v) (norm g) b) d).
(** hdf5.py 102-115 delete: value, then block; a KeyError ends it silently *)
Definition h5_delete (fn g : pystr) : st disk unit := fun d =>
  if negb (name_ok fn) then (Err EOS, d)
  else let f := open_a d fn in
    if str_eqb g [] then (Err EValue, dset fn f d)
    else match fget (norm g) f with
         | Some (mkAttrs (Some _) _) => (Ok tt, dset fn (fset (norm g) no_attrs f) d)
         | _ => (Ok tt, dset fn f d)
         end.
(** hdf5.py 118-124 set_value_to_disk *)
Definition set_value_to_disk (fn g : pystr) (v : pyval) (block : option Z) : st disk unit :=
  let! e := lift (match v with VNone => Ok None | _ => mapr Some (encode v) end) in
  h5_set fn g e (Some (match block with Some b => b | None => (-1)%Z end)).

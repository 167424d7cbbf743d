(** * What the ORM properties talk about *)
From Verif Require Import Model.Base Model.State Model.Value Model.Encoder Model.Hdf5 Model.Runtime Model.Driver Model.Orm.

(** The texts of the parts of a key *)
Definition key_parts (k : hkey) : list hpart := match k with HOne p => [p] | HTup l => l end.
Definition texts (ostr : pyval -> pystr) (ps : list hpart) (ts : list pystr) : Prop :=
  Forall2 (fun p t => part_str ostr p = Ok t) ps ts.
(** The documented rules for hash keys *)
Record valid_key (ostr : pyval -> pystr) (k : hkey) (ts : list pystr) : Prop := {
  vk_texts : texts ostr (key_parts k) ts;
  vk_dims : List.length ts <= 16;
  vk_chars : forall t, In t ts -> ~ In (ch ":") t /\ ~ In (ch ".") t;
  vk_len : List.length (join (u ":") ts) <= 1024;
  vk_slice : forall l t, k = HTup l -> ~ In (PSlice t) l }.

(** Names of contracts and variables *)
Definition contract_name (c : pystr) : Prop := ~ In (ch ".") c.
Definition variable_name (n : pystr) : Prop := ~ In (ch ":") n.
(** A tuple of strings as a hash key *)
Definition strs (ps : list pystr) : hkey := HTup (map (fun s => PVal (VStr s)) ps).

(** What contracts do with declared variables and hashes, without committing *)
Inductive access : Type :=
| AVarSet (c n : pystr) (t : option pytype) (v : pyval)
| AVarGet (c n : pystr)
| AHashSet (c n : pystr) (k : hkey) (v : pyval)
| AHashGet (c n : pystr) (k : hkey)
| AHashAll (ord : list pystr -> list pystr) (c n : pystr) (args : list hpart).
Definition run_access (ostr : pyval -> pystr) (a : access) (w : world) : world :=
  match a with
  | AVarSet c n t v => snd (var_set (var_decl c n t VNone) v w)
  | AVarGet c n => snd (var_get (var_decl c n None VNone) w)
  | AHashSet c n k v => snd (hash_set ostr (hash_decl c n VNone) k v w)
  | AHashGet c n k => snd (hash_get ostr (hash_decl c n VNone) k w)
  | AHashAll ord c n args => snd (hash_all ostr ord (hash_decl c n VNone) args w)
  end.
Definition run_accesses ostr (l : list access) (w : world) : world := fold_left (fun w a => run_access ostr a w) l w.
(** The access has nothing to do with entry [ts] of the hash [c.n] *)
Definition elsewhere ostr (c n : pystr) (ts : list pystr) (a : access) : Prop :=
  match a with
  | AVarSet c' n' _ _ => contract_name c' /\ variable_name n'
  | AHashSet c' n' k' _ => contract_name c' /\ variable_name n' /\
      (c' <> c \/ n' <> n \/ forall ts', valid_key ostr k' ts' -> join (u ":") ts' <> join (u ":") ts)
  | _ => True
  end.
(** Reads of every key are the same in both worlds *)
Definition same_reads (w w' : world) : Prop := forall k, fst (get k (w_drv w)) = fst (get k (w_drv w')).
(** The value as a hash or variable gives it back (before a commit): floats and raw Decimals as ContractingDecimal *)
Definition read_form (v : pyval) : result pyval := coerce v.

(** Which text could collide on disk: '/' separates groups *)
Definition plain_text (t : pystr) : Prop := t <> [] /\ ~ In (ch ":") t /\ ~ In (ch ".") t /\ ~ In (ch "/") t.

(** A group name never contains ':' (parse_key replaces it) *)
Definition no_colon (f : hfile) : Prop := forall p a n, In (p, a) f -> In n p -> ~ In (ch ":") n.
Definition disk_no_colon (d : disk) : Prop := forall fn f, In (fn, f) d -> no_colon f.
(** The entries a listing should report: live values under the prefix *)
Definition live_entry (v : driver) (k : pystr) : Prop := exists x, fst (get k v) = Ok x /\ x <> VNone.

(** An event declaration that LogEvent accepts *)
Record event_decl_ok (params : dict param) : Prop := {
  ed_some : params <> [];
  ed_idx : List.length (filter (fun p => p_idx (snd p)) params) <= 3;
  ed_types : forall a p, In (a, p) params -> exists ts, p_types p = Some ts /\
     forall t, In t ts -> In t [TStr; TInt; TFloat; TBool; TDec] }.
(** An iteration order of sets of strings: the same elements *)
Definition set_order (ord : list pystr -> list pystr) : Prop := forall l k, In k (ord l) <-> In k l.

(** * What the properties about dumps and listings of the whole storage talk about *)
From Verif Require Import Model.Base Model.State Model.Value Model.Encoder Model.Hdf5 Model.Runtime Model.Driver.
From Verif Require Import Spec.DriverSpec.
Local Open Scope string_scope.
Local Open Scope list_scope.

(** The directories as the driver can leave them: entries written (by commit or hard_apply) and deleted, whether or not the
    update succeeded, and files removed *)
Inductive stored : disk -> Prop :=
| st_empty : stored []
| st_write k x b d : stored d -> stored (snd (set_value_to_disk (fst (parse_key k)) (snd (parse_key k)) x b d))
| st_delete k d : stored d -> stored (snd (h5_delete (fst (parse_key k)) (snd (parse_key k)) d))
| st_remove fn d : stored d -> stored (ddel fn d).

(** Files whose name starts with two underscores are in the directory run_state, the others in contract_state *)
Definition of_run_state (k : pystr) : bool := startswith (fst (place_of k)) (u "__").
(** An entry has a value: what a new driver reads is not None *)
Definition committed (d : disk) (k : pystr) (x : pyval) : Prop := key_ok k /\ fresh_read d k = Ok x /\ x <> VNone.
(** The key of an entry that is not in the root group of its file *)
Definition below_root (k : pystr) : Prop := snd (place_of k) <> [].
(** A key as make_key builds it, from parts that are not empty, not a dot and free of the separators *)
Definition part (p : pystr) : Prop := p <> [] /\ p <> u "." /\ ~ In (ch ":") p /\ ~ In (ch "/") p.
Definition regular (k : pystr) (c n : pystr) (args : list pystr) : Prop :=
  k = make_key c n args /\ ~ In (ch ".") c /\ ~ In (ch ":") c /\ part n /\ forall a, In a args -> part a.

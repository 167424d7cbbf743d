(** * What the properties of the client talk about *)
From Verif Require Import Model.Base Model.State Model.Value Model.Encoder Model.Hdf5 Model.Runtime Model.Driver Model.Orm Model.Exec Model.Executor Model.Client.
From Verif Require Import Spec.DriverSpec.

(** The driver of a client, and what it reads under a key now *)
Definition drv_of (c : client) : driver := s_drv (k_mach c).
Definition client_reads (c : client) (k : pystr) : result pyval := fst (get k (drv_of c)).
(** A write of the key is pending, or cached, and is not a deletion *)
Definition listed_live (c : client) (k : pystr) : Prop :=
  (exists x, In (k, x) (dv_writes (drv_of c)) /\ x <> VNone) \/ (exists x, In (k, x) (dv_cache (drv_of c)) /\ x <> VNone).
(** A text from which every '.__code__' is removed, from left to right *)
Inductive removed : pystr -> pystr -> Prop :=
| rm_nil : removed [] []
| rm_code k r : removed k r -> removed (u ".__code__" ++ k) r
| rm_char c k r : startswith (c :: k) (u ".__code__") = false -> removed k r -> removed (c :: k) (c :: r).

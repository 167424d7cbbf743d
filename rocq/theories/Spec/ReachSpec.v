(** * Histories of one Driver, with commits and hard applies that succeed *)
From Verif Require Import Model.Base Model.State Model.Value Model.Encoder Model.Hdf5 Model.Runtime Model.Driver.
From Verif Require Import Spec.EncSpec Spec.DriverSpec.

(** Every key written is one of U, every value is [good] *)
Definition op_in (U : pystr -> Prop) (good : pyval -> Prop) (o : op) : Prop :=
  match o with OSet k v _ => U k /\ good v | ODelete k => U k | _ => True end.
Inductive history (U : pystr -> Prop) (good : pyval -> Prop) : world -> Prop :=
| h_start d r : history U good (mkW (driver0 false d) r)
| h_op o w : history U good w -> op_in U good o -> history U good (run_op o w)
| h_commit w v' : history U good w -> commit (w_drv w) = (Ok tt, v') -> history U good (mkW v' (w_rt w))
| h_hard n w v' : history U good w -> hard_apply n (w_drv w) = (Ok tt, v') -> history U good (mkW v' (w_rt w))
| h_rollback o w v' : history U good w -> rollback o (w_drv w) = (Ok tt, v') -> history U good (mkW v' (w_rt w)).

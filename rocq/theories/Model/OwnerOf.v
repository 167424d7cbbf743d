(** * stdlib/bridge/imports.py: owner_of *)
From Verif Require Import Model.Base Model.State Model.Dec Model.Time Model.Value Model.Encoder Model.Hdf5 Model.Runtime Model.Driver Model.Orm Model.Exec.

(** imports.py 88-91 owner_of(m): [m] is m.__name__, for the module of a contract its name (module.py 70-124).  The driver is the one of the
    executor, which is in rt.env while a transaction is executed (executor.py 61-66).  Unlike driver.get_owner (driver.py 230-234) an owner ''
    is returned as it is. *)
Definition owner_of (m : pystr) : st mach pyval := on_w (on_drv (get_var m OWNER_KEY [])).

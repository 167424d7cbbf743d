(** * What interface enforcement means *)
From Verif Require Import Model.Base Model.Interface.

(** The function that a module attribute stands for: itself, or, for a decorated function, the decorated one *)
Inductive stands_for : pyfunc -> pystr -> list pystr -> Prop :=
| sf_plain n l : stands_for (mkPyfunc (mkCode n l) None) n l
| sf_wrapped c n l rest : stands_for (mkPyfunc c (Some (CellFunction (mkCode n l), rest))) n l.
(** Class t is c or above c *)
Inductive subclass : ormclass -> ormclass -> Prop :=
| sub_refl c : subclass c c
| sub_up c b t : base_class c = Some b -> subclass b t -> subclass c t.
(** The module has the required name; if it is a function, it has that very name and exactly these arguments; if it is an ORM object, it is of the class *)
Inductive meets (m : dict attribute) : requirement -> Prop :=
| meets_func n l f : dget n m = Some (AtFunction f) -> stands_for f n l -> meets m (RFunc n (ArgTuple l))
| meets_var n t c : dget n m = Some (AtDatum c) -> subclass c t -> meets m (RVar n t)
| meets_object r : dget (req_name r) m = Some AtObject -> meets m r.

(** The names a contract's source binds in its module, in the order of the source *)
Definition bound_names (ds : list decl) : list pystr :=
  map (fun d => match d with DExport n _ | DOther n => n | DPrivate n _ | DOrm n _ => u "__" ++ n end) ds.

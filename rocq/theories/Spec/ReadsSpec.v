(** * What "the transaction read a key" means *)
From Verif Require Import Model.Base Model.State Model.Value Model.Encoder Model.Driver Model.Orm Model.Exec.

(** A completed access of contract code that reads the state of one key: getting or setting a Variable, a Hash entry, a variable of another contract.
    (Setting counts: the code looks the old value up.) *)
Definition accesses (L : lang) (o : obs) (k : pystr) : Prop :=
  match o with
  | OAct _ (ActVarGet x) | OAct _ (ActVarSet x _) => k = v_key x
  | OAct _ (ActHashGet h hk) | OAct _ (ActHashSet h hk _) => exists t, validate_key (l_ostr L) hk = Ok t /\ k = entry_key h t
  | OAct _ (ActGetVar c n) | OAct _ (ActSetVar c n _) => k = make_key c n []
  | _ => False
  end.

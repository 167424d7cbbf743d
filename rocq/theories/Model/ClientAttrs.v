(** * client.py: the attributes of a contract object (AbstractContract.__getattr__) *)
From Verif Require Import Model.Base Model.State Model.Dec Model.Time Model.Value Model.Encoder Model.Hdf5 Model.Runtime Model.Driver Model.Orm Model.Exec Model.Executor Model.Client.
Local Open Scope string_scope.
Local Open Scope list_scope.

(** What contract.item is: an attribute of the object itself (one of its functions, name, signer, keys, ...), a Variable or a Hash of the
    contract, or the value of a protected variable *)
Inductive attr_result : Type := AOwn | AVariable (contract name : pystr) | AHash (contract name : pystr) | AValue (x : pyval).
(** client.py 49-50 keys *)
Definition contract_keys (L : lang) (name : pystr) : st client (list pystr) := on_kd (keys (l_ord L) name).
(** client.py 113-140 __getattr__ of the contract object called [name], whose own attributes are [own].
    Simplification: Variable.get adds no default here (Variable(...) is made without one), so it is the driver's get. *)
Definition contract_attr (L : lang) (own : list pystr) (name item : pystr) : st client attr_result :=
  if str_mem item own then ret AOwn
  else
    let fullname := name ++ ch "." :: item in
    let! ks := contract_keys L name in
    if str_mem fullname ks then
      if startswith item (u "__") then let! x := on_kd (get fullname) in ret (AValue x)
      else ret (AVariable name item)
    else
      let! vs := on_kd (values (l_ord L) (name ++ ch "." :: item ++ u ":")) in
      match vs with
      | [] => raise EAttribute
      | _ => ret (AHash name item)
      end.

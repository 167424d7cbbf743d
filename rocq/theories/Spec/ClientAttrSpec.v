(** * What the attributes of a contract object should be *)
From Verif Require Import Model.Base Model.State Model.Value Model.Encoder Model.Hdf5 Model.Runtime Model.Driver Model.Orm Model.Exec Model.Executor Model.Client Model.ClientAttrs.
From Verif Require Import Spec.DriverSpec Spec.ClientSpec.
Local Open Scope string_scope.
Local Open Scope list_scope.

(** contract.item, given which keys hold something: the variable 'contract.item' if it holds something (only its value, if it is protected);
    otherwise the hash, if it has an entry; otherwise there is no such attribute. *)
Inductive attr_meaning (holds : pystr -> Prop) (c : client) (name item : pystr) : result attr_result -> Prop :=
| am_variable : holds (name ++ u "." ++ item) -> startswith item (u "__") = false ->
    attr_meaning holds c name item (Ok (AVariable name item))
| am_protected x : holds (name ++ u "." ++ item) -> startswith item (u "__") = true -> client_reads c (name ++ u "." ++ item) = Ok x ->
    attr_meaning holds c name item (Ok (AValue x))
| am_raises e : holds (name ++ u "." ++ item) -> startswith item (u "__") = true -> client_reads c (name ++ u "." ++ item) = Err e ->
    attr_meaning holds c name item (Err e)
| am_hash r : ~ holds (name ++ u "." ++ item) -> holds (name ++ u "." ++ item ++ u ":" ++ r) ->
    attr_meaning holds c name item (Ok (AHash name item))
| am_none : ~ holds (name ++ u "." ++ item) -> (forall r, ~ holds (name ++ u "." ++ item ++ u ":" ++ r)) ->
    attr_meaning holds c name item (Err EAttribute).

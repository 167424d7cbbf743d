(** * client.py: the contract objects (AbstractContract) and how their functions pass arguments *)
From Verif Require Import Model.Base Model.State Model.Dec Model.Time Model.Value Model.Encoder Model.Hdf5 Model.Runtime Model.Driver Model.Orm Model.Exec Model.Executor Model.Client Model.Ast.
Local Open Scope string_scope.
Local Open Scope list_scope.

(** client.py 254-263 get_contract: the functions of the (parsed) code with the names of their plain arguments *)
Definition contract_functions (t : ast) : result (list (pystr * list pystr)) :=
  seqr (fun d =>
    do name <- attr_id "name" d;
    do a <- attr "args" d;
    do l <- attrs "args" a;
    do ns <- seqr (attr_id "arg") l;
    Ok (name, ns)) (filter (is_kind "FunctionDef") (walk t)).
(** client.py 39-46: the keywords given to partial by name, and (146-158) the other parameters of _abstract_function_call *)
Definition BOUND := [u "signer"; u "contract_name"; u "executor"; u "func"; u "return_full_output"].
(** client.py 146-186: the other parameters of _abstract_function_call *)
Definition TAKEN := [u "environment"; u "stamps"; u "metering"; u "now"].
(** client.py 28-46: one partial for each function: {argument: None}; a keyword given twice is a TypeError; a later function of the
    same name replaces the earlier one *)
Fixpoint make_partials (fs : list (pystr * list pystr)) (ps : dict (dict pyval)) : result (dict (dict pyval)) :=
  match fs with
  | [] => Ok ps
  | (f, args) :: r =>
      if existsb (fun a => str_mem a BOUND) args then Err EType
      else make_partials r (dset f (map (fun a => (a, VNone)) args) ps)
  end.
(** client.py 248-271 get_contract of a stored contract with this tree *)
Definition abstract_contract (t : ast) : result (dict (dict pyval)) := do fs <- contract_functions t; make_partials fs [].

(** What a caller gives by the keywords of the client itself *)
Record options : Type := mkOpts { p_signer : option pystr; p_env : option (dict pyval); p_metering : option bool; p_now : option pyval }.
Section Call.
  Variables (L : lang) (fuel : nat).
  (** contract.f( **given, options): functools.partial merges the keywords, _abstract_function_call (146-185) takes its own parameters
      out of them and passes the rest on.
      Simplifications: an argument called stamps, not given, makes execute raise a TypeError (None * 1000): here without effect;
      an argument called self makes the call itself raise *)
  Definition contract_call (clock : pyval) (name : pystr) (ps : dict (dict pyval)) (f : pystr) (given : dict pyval) (o : options) : st client pyval :=
    match dget f ps with
    | None => raise EAttribute
    | Some defaults =>
        let! c := gets (fun c => c) in
        let kw := dupdate defaults given in
        if (dmem (u "self") kw || dmem (u "stamps") kw)%bool then raise EType
        else call_contract L fuel clock (match p_signer o with Some s => s | None => k_signer c end) name f
               (filter (fun kv => negb (str_mem (fst kv) TAKEN)) kw) (p_env o) (p_metering o) (p_now o)
    end.
End Call.

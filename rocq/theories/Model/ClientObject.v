(** * client.py: how a contract object is built, and what its functions ask of the executor

    Model/ClientFuncs.v has the arguments of the calls; here are the attributes of the object, which the contract's functions share
    with the object's own name, signer, environment, executor, functions and methods. *)
From Verif Require Import Model.Base Model.State Model.Dec Model.Time Model.Value Model.Encoder Model.Hdf5 Model.Runtime Model.Driver Model.Orm Model.Exec Model.Executor Model.Client Model.Ast Model.ClientFuncs.
Local Open Scope string_scope.
Local Open Scope list_scope.

(** What an attribute of the object holds (client.py 22-46): the texts, the client's environment and executor, the list of functions, or a
    functools.partial of _abstract_function_call with the keywords given in 39-46 *)
Inductive aval : Type :=
| AName (n : pystr) | ASigner (s : pystr) | AEnvironment | AExecutor | AFunctions
| APartial (signer contract_name executor : aval) (func : pystr) (defaults : dict pyval).
(** the instance dict of an AbstractContract (client.py 22-46) *)
Definition object := dict aval.
(** client.py 23-27: the attributes set first *)
Definition own_attributes (name signer : pystr) : object :=
  [(u "name", AName name); (u "signer", ASigner signer); (u "environment", AEnvironment); (u "executor", AExecutor); (u "functions", AFunctions)].
(** client.py 29-46: one attribute for each function.  self.signer, self.name and self.executor are looked up each time; a keyword given twice
    is a TypeError.  Simplification: a function called _abstract_function_call (linter.py 36-40 refuses the name) is not treated specially. *)
Fixpoint set_functions (fs : list (pystr * list pystr)) (obj : object) : result object :=
  match fs with
  | [] => Ok obj
  | (f, args) :: r =>
      match dget (u "signer") obj, dget (u "name") obj, dget (u "executor") obj with
      | Some s, Some n, Some x =>
          if existsb (fun a => str_mem a BOUND) args then Err EType
          else set_functions r (dset f (APartial s n x f (map (fun a => (a, VNone)) args)) obj)
      | _, _, _ => Err EAttribute
      end
  end.
(** client.py 248-271 get_contract of the stored contract [name] with this tree, by a client with this signer *)
Definition contract_object (t : ast) (name signer : pystr) : result object :=
  do fs <- contract_functions t; set_functions fs (own_attributes name signer).

(** client.py 164-165: self.now().  The method (142-144), unless an attribute of the instance hides it; if that is a partial, its call needs the
    time itself and calls self.now() again: [n] is what is left of Python's stack *)
Fixpoint self_now (n : nat) (clock : pyval) (obj : object) : result pyval :=
  match dget (u "now") obj with
  | None => Ok clock
  | Some (APartial _ _ _ _ _) => match n with O => Err ERecursion | S m => self_now m clock obj end
  | Some _ => Err EType
  end.
(** What executor.execute is called with (client.py 170-178) *)
Record request : Type := mkReq {
  rq_sender : aval; rq_contract : pystr; rq_function : pystr; rq_kwargs : dict pyval; rq_env : option (dict pyval); rq_meter : option bool; rq_now : pyval }.
(** client.py 146-178 for object.f( **given, options).  A partial in the place of the environment or of the executor has no attribute get or execute
    (AttributeError); one in the place of the contract's name fails in driver.py 208-212 make_key, within execute (TypeError).
    Simplifications: the effects of the latter (the fee, the time stored in the environment) are left out; [given] and the object's own options are
    kept apart as in Model/ClientFuncs.v. *)
Definition object_request (stack : nat) (clock : pyval) (obj : object) (f : pystr) (given : dict pyval) (o : options) : result request :=
  match dget f obj with
  | None => Err EAttribute
  | Some (APartial s n x func defaults) =>
      let kw := dupdate defaults given in
      if (dmem (u "self") kw || dmem (u "stamps") kw)%bool then Err EType
      else
        do now <- (match p_now o with Some t => if is_none t then self_now stack clock obj else Ok t | None => self_now stack clock obj end);
        do _ <- (match p_env o with
                 | Some (_ :: _) => Ok tt
                 | _ => match dget (u "environment") obj with Some AEnvironment => Ok tt | _ => Err EAttribute end
                 end);
        match x with
        | AExecutor =>
            match n with
            | AName name =>
                Ok (mkReq (match p_signer o with Some s => ASigner s | None => s end) name func
                          (filter (fun kv => negb (str_mem (fst kv) TAKEN)) kw) (p_env o) (p_metering o) now)
            | _ => Err EType
            end
        | _ => Err EAttribute
        end
  | Some _ => Err EType
  end.
(** client.py 162-185 for such a request.  A sender that is no text is not modelled *)
Definition object_call (L : lang) (fuel stack : nat) (clock : pyval) (obj : object) (f : pystr) (given : dict pyval) (o : options) : st client pyval :=
  match object_request stack clock obj f given o with
  | Err e => raise e
  | Ok r => match rq_sender r with
            | ASigner s => call_contract L fuel clock s (rq_contract r) (rq_function r) (rq_kwargs r) (rq_env r) (rq_meter r) (Some (rq_now r))
            | _ => raise EUnknown
            end
  end.

(** * client.py: what a call through a contract object answers

    Model/Client.v has [call_contract], for the objects of get_contract called without the keywords stamps and return_full_output and with
    an executor whose [production] is False; here are these three. *)
From Verif Require Import Model.Base Model.State Model.Dec Model.Time Model.Value Model.Encoder Model.Hdf5 Model.Runtime Model.Driver Model.Orm Model.Exec Model.Executor Model.Client.
Local Open Scope list_scope.

(** client.py 185: the result of the function, or the dict executor.py 185-194 *)
Inductive reply : Type := RValue (v : pyval) | RReport (o : output).
(** client.py 146-185 _abstract_function_call( **kw, environment=env, stamps=stamps, metering=meter, now=now, return_full_output=full).
    180-181: Executor has no attribute sandbox, so with production (executor.py 16, 30) the call raises AttributeError once the transaction
    has been executed.  183-184: 'raise output' of the dict is a TypeError.  The rest is [call_contract]. *)
Definition abstract_call (L : lang) (fuel : nat) (production full : bool) (stamps : Z) (clock : pyval) (signer contract func : pystr) (kw : dict pyval)
    (env : option (dict pyval)) (meter : option bool) (now : option pyval) : st client reply :=
  let own := match env with Some (_ :: _) => false | _ => true end in
  let! c := gets (fun c => c) in
  let environment := match env with Some (x :: e) => x :: e | _ => k_env c end in
  let now := match now with Some n => if is_none n then clock else n | None => clock end in
  let environment := if is_none (pget NOW environment) then dset NOW now environment else environment in
  (if own then modify (set_kenv environment) else ret tt);;
  let! o := on_m (execute L fuel (k_cfg c) (mkTx signer contract func kw environment false stamps STAMPS_PER_TAU meter)) in
  if production then raise EAttribute
  else if Z.eqb (o_status o) 1 then
    (if full then raise EType else lift (match o_result o with Ok _ => Err EType | Err e => Err e end))
  else if full then ret (RReport o) else lift (do v <- o_result o; Ok (RValue v)).
